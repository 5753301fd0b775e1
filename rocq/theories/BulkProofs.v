(** Proofs for C131: decoding does not make anything larger. *)
From Coq Require Import NArith ZArith Bool String Lia.
From Coq Require Import Init.Byte List.
From Verif Require Import Bytes Value ValueProofs Cbor CborProofs Registry Crypto Keys Headers Messages Recipients SpecBulk.
Import ListNotations.
Local Open Scope nat_scope.

Notation pairs d := (list_sum (map (fun e => match e with (a, b) => weight a + weight b end) d)).

(** ** Data items *)

Fixpoint cweight (c : cbor) : nat :=
  match c with
  | CBytes b | CText b => S (length b)
  | CArr l => S (list_sum (map cweight l))
  | CMap l => S (list_sum (map (fun e => match e with (a, b) => cweight a + cweight b end) l))
  | CTag _ c => S (cweight c)
  | _ => 1
  end.
Notation cpairs l := (list_sum (map (fun e => match e with (a, b) => cweight a + cweight b end) l)).

Lemma take_len : forall n l a r, take n l = Ok (a, r) -> length a + length r <= length l.
Proof.
  intros n l a r H. unfold take in H. destruct (N.ltb _ _); [discriminate|]. injection H as <- <-.
  rewrite <- (firstn_skipn (N.to_nat n) l) at 3. rewrite app_length. lia.
Qed.
Lemma arg_len : forall allow info l o r, arg allow info l = Ok (o, r) -> length r <= length l.
Proof.
  intros allow info l o r H. unfold arg in H.
  repeat match type of H with (if ?c then _ else _) = _ => destruct c end; try discriminate; try (injection H as _ <-; lia);
    apply bind_ok in H as ([a q] & HT & H); injection H as _ <-; apply take_len in HT; lia.
Qed.
Lemma arg_fixed_len : forall info l n r, arg_fixed info l = Ok (n, r) -> length r <= length l.
Proof.
  intros info l n r H. unfold arg_fixed in H. apply bind_ok in H as ([o q] & HA & H). apply arg_len in HA. destruct o; [|discriminate]. injection H as _ <-. exact HA.
Qed.
Lemma string_len : forall text n l b r, take_string text n l = Ok (b, r) -> length b + length r <= length l.
Proof.
  intros text n l b r H. unfold take_string in H. destruct (N.leb _ _); [discriminate|]. apply bind_ok in H as ([a q] & HT & H). apply take_len in HT.
  destruct (_ && _); [discriminate|]. injection H as <- <-. exact HT.
Qed.
Lemma chunks_len : forall text f l b r, dec_chunks f text l = Ok (b, r) -> length b + length r <= length l.
Proof.
  intros text. induction f as [|f IH]; intros l b r H; cbn [dec_chunks] in H; [discriminate|]. destruct l as [|x l]; [discriminate|].
  destruct (N.eqb _ _); [injection H as <- <-; cbn; lia|]. destruct (N.eqb _ _); [|discriminate].
  apply bind_ok in H as ([n r1] & H1 & H). apply bind_ok in H as ([s r2] & H2 & H). apply bind_ok in H as ([s' r3] & H3 & H). injection H as <- <-.
  apply arg_fixed_len in H1. apply string_len in H2. apply IH in H3. rewrite app_length. cbn [length]. lia.
Qed.
Lemma text_len : forall f text info l c r, dec_string f text info l = Ok (c, r) -> cweight c + length r <= S (length l).
Proof.
  intros f text info l c r H. unfold dec_string in H. apply bind_ok in H as ([o q] & HA & H). apply arg_len in HA.
  destruct o as [n|]; apply bind_ok in H as ([b q'] & HB & H); injection H as <- <-; [apply string_len in HB|apply chunks_len in HB]; destruct text; cbn [cstring cweight]; lia.
Qed.
Lemma special_len : forall info l c r, dec_special info l = Ok (c, r) -> cweight c + length r <= S (length l).
Proof.
  intros info l c r H. unfold dec_special in H.
  repeat match type of H with (if ?c then _ else _) = _ => destruct c end; try discriminate; try (injection H as <- <-; cbn [cweight]; lia);
    apply bind_ok in H as ([a q] & HT & H); apply take_len in HT; cbv zeta in H;
    try (match type of H with (if ?c then _ else _) = _ => destruct c end; [discriminate|]); injection H as <- <-; cbn [cweight]; lia.
Qed.

Lemma dec_all_len : forall f,
  (forall l c r, dec f l = Ok (c, r) -> cweight c + length r <= length l) /\
  (forall n l cs r, dec_seq f n l = Ok (cs, r) -> list_sum (map cweight cs) + length r <= length l) /\
  (forall n l cs r, dec_map f n l = Ok (cs, r) -> cpairs cs + length r <= length l) /\
  (forall l cs r, dec_seq_indef f l = Ok (cs, r) -> list_sum (map cweight cs) + length r <= length l) /\
  (forall l cs r, dec_map_indef f l = Ok (cs, r) -> cpairs cs + length r <= length l).
Proof.
  induction f as [|f (Hd & Hs & Hm & Hsi & Hmi)]; [repeat split; intros; discriminate|].
  split; [|split; [|split; [|split]]].
  - intros l c r H. cbn [dec] in H. destruct l as [|b l]; [discriminate|]. cbv zeta in H. cbn [length].
    destruct (N.eqb _ _); [apply bind_ok in H as ([n q] & HA & H); apply arg_fixed_len in HA; injection H as <- <-; cbn [cweight]; lia|].
    destruct (N.eqb _ _); [apply bind_ok in H as ([n q] & HA & H); apply arg_fixed_len in HA; injection H as <- <-; cbn [cweight]; lia|].
    destruct (N.eqb _ _); [exact (text_len _ _ _ _ _ _ H)|]. destruct (N.eqb _ _); [exact (text_len _ _ _ _ _ _ H)|].
    destruct (N.eqb _ _).
    { apply bind_ok in H as ([o q] & HA & H). apply arg_len in HA. destruct o as [n|]; [destruct (N.leb _ _); [discriminate|]|];
        apply bind_ok in H as ([cs q'] & HC & H); injection H as <- <-; [apply Hs in HC|apply Hsi in HC]; cbn [cweight]; lia. }
    destruct (N.eqb _ _).
    { apply bind_ok in H as ([o q] & HA & H). apply arg_len in HA. destruct o as [n|]; [destruct (N.leb _ _); [discriminate|]|];
        apply bind_ok in H as ([cs q'] & HC & H); injection H as <- <-; [apply Hm in HC|apply Hmi in HC]; cbn [cweight]; lia. }
    destruct (N.eqb _ _); [|exact (special_len _ _ _ _ H)].
    apply bind_ok in H as ([t q] & HA & H). apply arg_fixed_len in HA. apply bind_ok in H as ([c' q'] & HC & H). injection H as <- <-. apply Hd in HC. cbn [cweight]. lia.
  - intros n l cs r H. cbn [dec_seq] in H. destruct (N.eqb _ _); [injection H as <- <-; cbn; lia|].
    apply bind_ok in H as ([c q] & H1 & H). apply bind_ok in H as ([cs' q'] & H2 & H). injection H as <- <-. apply Hd in H1. apply Hs in H2. cbn [map list_sum fold_right] in *.
    change (fold_right Nat.add 0 ?x) with (list_sum x) in *. lia.
  - intros n l cs r H. cbn [dec_map] in H. destruct (N.eqb _ _); [injection H as <- <-; cbn; lia|].
    apply bind_ok in H as ([k q] & H1 & H). apply bind_ok in H as ([v q1] & H2 & H). apply bind_ok in H as ([cs' q'] & H3 & H). injection H as <- <-.
    apply Hd in H1. apply Hd in H2. apply Hm in H3. cbn [map list_sum fold_right] in *. change (fold_right Nat.add 0 ?x) with (list_sum x) in *. lia.
  - intros l cs r H. cbn [dec_seq_indef] in H. apply bind_ok in H as ([c q] & H1 & H). apply Hd in H1.
    assert (HC : Ok ([], q) = Ok (cs, r) \/ bind (dec_seq_indef f q) (fun '(cs, r') => Ok (c :: cs, r')) = Ok (cs, r)) by (destruct c; auto). clear H.
    destruct HC as [H|H]; [injection H as <- <-; cbn; lia|]. apply bind_ok in H as ([cs' q'] & H2 & H). injection H as <- <-. apply Hsi in H2. cbn [map list_sum fold_right] in *.
    change (fold_right Nat.add 0 ?x) with (list_sum x) in *. lia.
  - intros l cs r H. cbn [dec_map_indef] in H. apply bind_ok in H as ([k q] & H1 & H). apply Hd in H1.
    assert (HC : Ok ([], q) = Ok (cs, r) \/ bind (dec f q) (fun '(v, r1) => bind (dec_map_indef f r1) (fun '(cs, r2) => Ok ((k, v) :: cs, r2))) = Ok (cs, r)) by (destruct k; auto). clear H.
    destruct HC as [H|H]; [injection H as <- <-; cbn; lia|]. apply bind_ok in H as ([v q1] & H2 & H). apply bind_ok in H as ([cs' q'] & H3 & H). injection H as <- <-.
    apply Hd in H2. apply Hmi in H3. cbn [map list_sum fold_right] in *. change (fold_right Nat.add 0 ?x) with (list_sum x) in *. lia.
Qed.

(** ** Python values *)

Lemma dset_weight : forall d k v, pairs (dset d k v) <= pairs d + weight k + weight v.
Proof.
  induction d as [|[k' v'] d IH]; intros k v; cbn [dset map list_sum fold_right]; [lia|]. destruct (keyeq k k'); cbn [map list_sum fold_right]; [change (fold_right Nat.add 0 ?x) with (list_sum x); lia|].
  specialize (IH k v). change (fold_right Nat.add 0 ?x) with (list_sum x) in *. lia.
Qed.
Lemma dupdate_weight : forall e d, pairs (dupdate d e) <= pairs d + pairs e.
Proof.
  unfold dupdate. induction e as [|[k v] e IH]; intros d; cbn [fold_left map list_sum fold_right fst snd]; [change (fold_right Nat.add 0 ?x) with (list_sum x); lia|]. specialize (IH (dset d k v)).
  pose proof (dset_weight d k v). change (fold_right Nat.add 0 ?x) with (list_sum x) in *. lia.
Qed.

Lemma mapM_weight : forall A B (f : A -> result B) (w : A -> nat) (w' : B -> nat) l, Forall (fun a => forall b, f a = Ok b -> w' b <= w a) l ->
  forall m, mapM f l = Ok m -> list_sum (map w' m) <= list_sum (map w l).
Proof.
  intros A B f w w' l HF. induction HF as [|a l HA HF IH]; intros m H; cbn [mapM] in H; [injection H as <-; reflexivity|].
  apply bind_ok in H as (b & HB & H). apply bind_ok in H as (m' & HM & H). injection H as <-. specialize (HA b HB). specialize (IH m' HM).
  cbn [map list_sum fold_right]. change (fold_right Nat.add 0 ?x) with (list_sum x) in *. lia.
Qed.

Lemma lift_weight : forall c imm v, lift imm c = Ok v -> weight v <= cweight c.
Proof.
  induction c as [n|n|b|b|l HF|l HF|t c IH|n|n|w b|] using cbor_ind'; intros imm v H; cbn [lift] in H; try (injection H as <-; cbn [weight cweight]; lia).
  - apply bind_ok in H as (vs & HM & H). assert (HW : list_sum (map weight vs) <= list_sum (map cweight l)).
    { eapply mapM_weight; [|exact HM]. eapply Forall_impl; [|exact HF]. intros c HC v' HV. exact (HC imm v' HV). }
    injection H as <-. destruct imm; cbn [weight cweight]; lia.
  - apply bind_ok in H as (kvs & HM & H). injection H as <-. cbn [weight cweight]. pose proof (dupdate_weight kvs []) as HD. cbn [map list_sum fold_right] in HD.
    assert (HW : pairs kvs <= cpairs l).
    { eapply (mapM_weight _ _ _ (fun e => match e with (a, b) => cweight a + cweight b end) (fun e => match e with (a, b) => weight a + weight b end)); [|exact HM].
      eapply Forall_impl; [|exact HF]. intros [k x] [HK HX] [k' x'] HV. cbn [fst snd] in *. apply bind_ok in HV as (k1 & H1 & HV). apply bind_ok in HV as (x1 & H2 & HV). injection HV as <- <-.
      apply HK in H1. apply HX in H2. lia. }
    unfold dict_of_pairs. change (fold_right Nat.add 0 ?x) with (list_sum x) in *. lia.
  - apply bind_ok in H as (w & HW & H). apply IH in HW. cbn [cweight].
    destruct (N.eqb t 2); [destruct w; try discriminate; injection H as <-; cbn [weight] in *; lia|].
    destruct (N.eqb t 3); [destruct w; try discriminate; injection H as <-; cbn [weight] in *; lia|].
    destruct (N.eqb t 55799); [injection H as <-; lia|]. destruct (is_special_tag t); injection H as <-; cbn [weight]; lia.
  - injection H as <-. destruct (N.eqb n 20); [cbn; lia|]. destruct (N.eqb n 21); [cbn; lia|]. destruct (N.eqb n 22); cbn; lia.
Qed.

Lemma loads_weight : forall b v, loads_bytes b = Ok v -> weight v <= length b.
Proof.
  intros b v H. unfold loads_bytes in H. apply bind_ok in H as ([c r] & HD & H). apply (proj1 (dec_all_len _)) in HD. apply lift_weight in H. lia.
Qed.

(** ** Messages *)

Section Bulk.
Variable X : crypto.

Notation params d := (list_sum (map parameter d)).

Lemma weight_pos : forall v, 1 <= weight v.
Proof. destruct v; cbn [weight]; lia. Qed.
Lemma dset_param : forall d k v, params (dset d k v) <= params d + parameter (k, v).
Proof.
  induction d as [|[k' v'] d IH]; intros k v; cbn [dset map list_sum fold_right]; [lia|]. destruct (keyeq k k'); cbn [map list_sum fold_right]; change (fold_right Nat.add 0 ?x) with (list_sum x) in *.
  - assert (parameter (k', v) <= parameter (k', v') + parameter (k, v)); [|lia]. unfold parameter. pose proof (weight_pos k). destruct v, v'; lia.
  - specialize (IH k v). lia.
Qed.
Lemma registered_weight : forall f k c, dget (registry f) k = Some c -> weight c = 1.
Proof.
  intros f k c H. assert (HF : forallb (fun e => Nat.eqb (weight (snd e)) 1) (registry f) = true) by (destruct f; vm_compute; reflexivity).
  revert H. induction (registry f) as [|[a b] l IH]; cbn [dget]; [discriminate|]. cbn [forallb snd] in HF. apply andb_prop in HF as [HA HF]. apply Nat.eqb_eq in HA.
  destruct (keyeq k a); [intros [= <-]; exact HA|exact (IH HF)].
Qed.
Lemma from_id_weight : forall v f allow w, from_id f allow v = Ok w -> weight w <= weight v.
Proof.
  fix IH 1. intros v f allow w H. destruct v; cbn [from_id] in H;
    try (destruct (dget (registry f) _) as [c0|] eqn:E; [injection H as <-; rewrite (registered_weight _ _ _ E); apply weight_pos|]);
    try (destruct allow; [injection H as <-; apply le_n|discriminate H]).
  apply bind_ok in H as (l' & HL & H). injection H as <-. cbn [weight]. apply le_n_S. revert l' HL. induction l as [|x l IHl]; intros l' HL; cbn [mapM] in HL; [injection HL as <-; apply le_n|].
  apply bind_ok in HL as (y & HY & HL). apply bind_ok in HL as (ys & HS & HL). injection HL as <-. apply IH in HY. specialize (IHl ys HS). exact (Nat.add_le_mono _ _ _ _ HY IHl).
Qed.
Lemma value_weight : forall a v v', parse_value X a v = Ok v' -> (exists c s e, v' = VKey c s e) \/ weight v' <= weight v.
Proof.
  intros a v v' H. unfold parse_value in H.
  repeat match type of H with (match ?x with _ => _ end) = _ => is_var x; destruct x end;
  first [ injection H as <-; right; apply le_n
        | right; exact (from_id_weight _ _ _ _ H)
        | left; apply bind_ok in H as (k & _ & H); injection H as <-; unfold kval; eauto
        | right; unfold is_bstr in H; destruct (is_bytes v); [injection H as <-; apply le_n|discriminate]
        | right; unfold crit_is_array in H; destruct v; try discriminate; destruct (_ || _); [discriminate|injection H as <-; apply le_n]
        | right; unfold content_type_is_uint_or_tstr in H; destruct v; try (destruct (as_int _); [|discriminate H]; destruct (Z.ltb _ 0); [discriminate H|]); injection H as <-; apply le_n ].
Qed.
Lemma items_weight : forall allow h acc d, parse_items X allow h acc = Ok d -> params d <= params acc + pairs h.
Proof.
  intros allow. induction h as [|[k v] h IH]; intros acc d H; cbn [parse_items] in H; [injection H as <-; lia|].
  apply bind_ok in H as (a & HA & H). apply bind_ok in H as (v' & HV & H). apply IH in H. pose proof (dset_param acc a v'). apply from_id_weight in HA. apply value_weight in HV.
  assert (parameter (a, v') <= weight k + weight v).
  { pose proof (weight_pos v). destruct HV as [(c & s & e & ->)|HV]; cbn [parameter]; [lia|]. pose proof (weight_pos v'). destruct v'; lia. }
  cbn [map list_sum fold_right]. change (fold_right Nat.add 0 ?x) with (list_sum x) in *. lia.
Qed.

Lemma core_bulk : forall allow obj c rest, core_from_obj X allow obj = Ok (c, rest) -> bulk c + list_sum (map weight rest) <= S (list_sum (map weight obj)).
Proof.
  intros allow obj c rest H. unfold core_from_obj in H. destruct obj as [|p [|u obj]]; try discriminate. apply bind_ok in H as (c0 & HC & H).
  destruct obj as [|pl obj]; [discriminate|]. apply bind_ok in H as (pl' & HP & H). injection H as <- <-.
  unfold core_init in HC. cbn [a_phdr a_phdr_encoded a_uhdr a_payload a_aad a_key a_allow a_tstr] in HC.
  apply bind_ok in HC as (ph & HPh & HC). destruct ph as [| | | | | | | | | | |pd| | | |]; try discriminate.
  assert (HU : exists ud, pairs ud <= weight u /\ bind (parse_items X allow pd []) (fun p0 => bind (parse_items X allow ud []) (fun u0 =>
    bind (match p with VNone => Ok None | VBytes b => Ok (Some b) | _ => Err TypeError end) (fun raw => bind (check_payload VNone) (fun pl0 => bind (check_aad (VBytes [])) (fun ad =>
    bind (check_key VNone) (fun k => Ok (Core p0 raw u0 [] false pl0 ad k))))))) = Ok c0).
  { destruct u as [| | | | | | | | | | |ud| | | |]; try discriminate HC; eexists; (split; [|exact HC]); cbn [map list_sum fold_right weight]; change (fold_right Nat.add 0 ?x) with (list_sum x) in *; lia. }
  clear HC. destruct HU as (ud & H2 & HC).
  apply bind_ok in HC as (p' & HP' & HC). apply bind_ok in HC as (u' & HU' & HC). apply items_weight in HP'. apply items_weight in HU'. cbn [map list_sum fold_right] in HP', HU'. change (fold_right Nat.add 0 ?x) with (list_sum x) in *.
  apply bind_ok in HC as (raw & _ & HC). apply bind_ok in HC as (x1 & _ & HC). apply bind_ok in HC as (x2 & _ & HC). apply bind_ok in HC as (x3 & _ & HC). injection HC as <-.
  assert (H1 : pairs pd < weight p).
  { destruct p; try (injection HPh as <-; cbn; lia);
      (destruct (veqb _ _); [injection HPh as <-; cbn; lia|]); cbn [loads] in HPh; try discriminate.
    apply loads_weight in HPh. cbn [weight] in *. lia. }
  assert (H3 : match pl' with Some b => length b | None => 0 end < weight pl).
  { unfold check_payload in HP. destruct pl; try discriminate; injection HP as <-; cbn [weight]; lia. }
  unfold bulk. cbn [phdr uhdr payload with_payload map list_sum fold_right]. change (fold_right Nat.add 0 ?x) with (list_sum x). lia.
Qed.

(** The lists among the elements of an array; anything else is refused as a layer. *)
Definition lweight (v : pyval) : nat := match v with VList _ => weight v | _ => 0 end.
Lemma lweight_le : forall v, lweight v <= weight v.
Proof. destruct v; cbn [lweight]; lia. Qed.
Lemma lweight_sum : forall l, list_sum (map lweight l) <= list_sum (map weight l).
Proof.
  induction l as [|v l IH]; cbn [map list_sum fold_right]; [lia|]. pose proof (lweight_le v). change (fold_right Nat.add 0 ?x) with (list_sum x) in *. lia.
Qed.
Lemma lweight_fst : forall d : dict, list_sum (map lweight (map fst d)) <= pairs d.
Proof.
  induction d as [|[k v] d IH]; cbn [map list_sum fold_right fst]; [lia|]. pose proof (lweight_le k). change (fold_right Nat.add 0 ?x) with (list_sum x) in *. lia.
Qed.
Lemma lweight_none : forall A (f : A -> pyval) l, (forall x, lweight (f x) = 0) -> list_sum (map lweight (map f l)) = 0.
Proof. intros A f l H. induction l as [|x l IH]; [reflexivity|]. cbn [map list_sum fold_right]. rewrite H. exact IH. Qed.
Lemma iter_weight : forall v l, py_iter v = Ok l -> S (list_sum (map lweight l)) <= weight v.
Proof.
  intros v l H. destruct v; try discriminate H; cbn [py_iter] in H; injection H as <-; cbn [weight].
  - rewrite lweight_none by reflexivity. lia.
  - rewrite lweight_none by reflexivity. lia.
  - pose proof (lweight_sum l0). lia.
  - pose proof (lweight_sum l0). lia.
  - pose proof (lweight_fst d). lia.
  - match goal with |- context [map fst ?d] => pose proof (lweight_fst d) end. lia.
Qed.

Lemma signer_bulk : forall allow v c, signer_from_obj X allow v = Ok c -> bulk c <= lweight v.
Proof.
  intros allow v c H. destruct v; try discriminate H. cbn [signer_from_obj] in H. apply bind_ok in H as ([c' r] & HC & H). injection H as <-. apply core_bulk in HC. cbn [lweight weight]. lia.
Qed.
Lemma rcpt_from : forall allow ctx id rc v r, rcpt_from_obj X allow ctx id rc v = Ok r -> list_sum (map bulk (nested r)) <= lweight v.
Proof.
  intros allow ctx id rc v r H. destruct v; try discriminate H. cbn [rcpt_from_obj] in H. apply bind_ok in H as ([c q] & HC & H). apply core_bulk in HC.
  assert (HR : r = Rcpt id rc c ctx []).
  { destruct rc; repeat match type of H with
      | bind _ _ = _ => apply bind_ok in H as (? & _ & H)
      | (if ?c then _ else _) = _ => destruct c
      end; try discriminate H; injection H as <-; reflexivity. }
  subst r. cbn [nested flat_map map list_sum fold_right lweight weight]. lia.
Qed.
Lemma create_bulk : forall allow ctx l id rs, create_all X allow ctx id l = Ok rs -> list_sum (map bulk (flat_map nested rs)) <= list_sum (map lweight l).
Proof.
  intros allow ctx. induction l as [|v l IH]; intros id rs H; cbn [create_all] in H; [injection H as <-; cbn; lia|].
  apply bind_ok in H as (r & HR & H). apply bind_ok in H as (rs' & HS & H). injection H as <-. apply IH in HS.
  unfold create_recipient in HR. apply bind_ok in HR as (r0 & _ & HR). apply bind_ok in HR as (p & _ & HR). apply bind_ok in HR as (r1 & _ & HR). apply bind_ok in HR as (d & _ & HR).
  cbv zeta in HR. destruct (is_none (if is_none p then _ else _)); [discriminate|]. apply bind_ok in HR as (rc & _ & HR). apply rcpt_from in HR.
  cbn [flat_map]. rewrite map_app, list_sum_app. cbn [map list_sum fold_right]. change (fold_right Nat.add 0 ?x) with (list_sum x) in *. lia.
Qed.
Lemma from_bulk : forall allow ctx rest o, recipients_from X allow ctx rest = Ok o ->
  list_sum (map bulk (flat_map nested (match o with Some rs => rs | None => [] end))) <= list_sum (map weight rest).
Proof.
  intros allow ctx rest o H. unfold recipients_from in H. destruct (match rest with [] => _ | _ => _ end) as [rs|e] eqn:E.
  - injection H as <-. destruct rest as [|v rest]; [discriminate|]. apply bind_ok in E as (l & HL & E). apply iter_weight in HL. apply create_bulk in E.
    cbn [map list_sum fold_right] in *. change (fold_right Nat.add 0 ?x) with (list_sum x) in *. lia.
  - destruct (_ || _); [injection H as <-|discriminate]. cbn. lia.
Qed.

Lemma obj_bulk : forall allow t obj m, from_cose_obj X allow t obj = Ok m -> size m <= S (list_sum (map weight obj)).
Proof.
  intros allow t obj m H. unfold from_cose_obj in H. unfold size.
  destruct (N.eqb t 16).
  { apply bind_ok in H as (c & HC & H). injection H as <-. unfold enc0_from_obj in HC. apply bind_ok in HC as ([c' r] & HC & H). injection H as <-. apply core_bulk in HC.
    cbn [layers seal map list_sum fold_right]. lia. }
  destruct (N.eqb t 17).
  { apply bind_ok in H as (c & HC & H). injection H as <-. unfold mac0_from_obj in HC. apply bind_ok in HC as ([c' r] & HC & H). apply core_bulk in HC.
    destruct r as [|x r]; [discriminate|]. injection H as <-. cbn [layers seal m0_core m0_tag map list_sum fold_right] in *. change (fold_right Nat.add 0 ?x) with (list_sum x) in *. lia. }
  destruct (N.eqb t 18).
  { apply bind_ok in H as (c & HC & H). injection H as <-. unfold sign1_from_obj in HC. apply bind_ok in HC as ([c' r] & HC & H). apply core_bulk in HC.
    destruct r as [|x r]; [discriminate|]. injection H as <-. cbn [layers seal s1_core s1_sig map list_sum fold_right] in *. change (fold_right Nat.add 0 ?x) with (list_sum x) in *. lia. }
  destruct (N.eqb t 96).
  { apply bind_ok in H as (c & HC & H). injection H as <-. unfold enc_from_obj in HC. apply bind_ok in HC as ([c' r] & HC & H). apply core_bulk in HC.
    apply bind_ok in H as (o & HO & H). injection H as <-. apply from_bulk in HO. cbn [layers seal e_core e_rcpts map list_sum fold_right] in *.
    change (fold_right Nat.add 0 ?x) with (list_sum x) in *. lia. }
  destruct (N.eqb t 97).
  { apply bind_ok in H as (c & HC & H). injection H as <-. unfold mac_from_obj in HC. apply bind_ok in HC as ([c' r] & HC & H). apply core_bulk in HC.
    destruct r as [|x r]; [discriminate|]. apply bind_ok in H as (o & HO & H). injection H as <-. apply from_bulk in HO.
    cbn [layers seal mm_core mm_tag mm_rcpts map list_sum fold_right] in *. destruct o as [rs|]; cbn [flat_map map list_sum fold_right] in *; change (fold_right Nat.add 0 ?x) with (list_sum x) in *; lia. }
  destruct (N.eqb t 98); [|discriminate].
  apply bind_ok in H as (c & HC & H). injection H as <-. unfold sign_from_obj in HC. apply bind_ok in HC as ([c' r] & HC & H). apply core_bulk in HC.
  destruct r as [|x r]; [discriminate|]. apply bind_ok in H as (l & HL & H). apply bind_ok in H as (ss & HS & H). injection H as <-. apply iter_weight in HL.
  assert (HW : list_sum (map bulk ss) <= list_sum (map lweight l)).
  { eapply mapM_weight; [|exact HS]. apply Forall_forall. intros v _ b HB. exact (signer_bulk _ _ _ HB). }
  cbn [layers seal sm_core sm_signers map list_sum fold_right] in *. change (fold_right Nat.add 0 ?x) with (list_sum x) in *. lia.
Qed.

Lemma decode_bulk : forall e allow b m, decode X e allow (VBytes b) = Ok m -> size m < length b.
Proof.
  intros e allow b m H. unfold decode in H. cbn [loads] in H. destruct (loads_bytes b) as [v|] eqn:E; [|discriminate]. apply loads_weight in E.
  destruct v as [| | | | | | | | | | | |t v| | |]; try discriminate. destruct v; try discriminate. apply bind_ok in H as (m' & HM & H). apply obj_bulk in HM.
  assert (m' = m) as -> by (destruct e; [destruct (N.eqb _ _); [|discriminate]|]; injection H as <-; reflexivity). cbn [weight] in E. lia.
Qed.
End Bulk.
