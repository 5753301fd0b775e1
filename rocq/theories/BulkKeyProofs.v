(** Proofs for C131: the size of decoded keys. *)
From Coq Require Import NArith ZArith Bool String Lia.
From Coq Require Import Init.Byte List.
From Verif Require Import Bytes BytesProofs Value ValueProofs Cbor CborProofs Registry Crypto Keys SpecBulk BulkProofs.
Import ListNotations.
Local Open Scope nat_scope.

Lemma sum_cons : forall a l, list_sum (a :: l) = a + list_sum l.
Proof. reflexivity. Qed.

(** ** Taking parameters out of a dictionary *)

Lemma ddel_le : forall d k, pairs (ddel d k) <= pairs d.
Proof.
  induction d as [|[a b] d IH]; intros k; cbn [ddel map]; [lia|]. destruct (keyeq k a); cbn [map]; rewrite ?sum_cons; [lia|]. specialize (IH k). lia.
Qed.
Lemma dget_ddel : forall d k v, dget d k = Some v -> S (weight v) + pairs (ddel d k) <= pairs d.
Proof.
  induction d as [|[a b] d IH]; intros k v H; cbn [dget ddel map] in *; [discriminate|]. destruct (keyeq k a); cbn [map]; rewrite ?sum_cons.
  - injection H as <-. pose proof (weight_pos a). lia.
  - apply IH in H. lia.
Qed.
Lemma ddel_gone : forall d k, dget d k = None -> ddel d k = d.
Proof. induction d as [|[a b] d IH]; intros k H; cbn [dget ddel] in *; [reflexivity|]. destruct (keyeq k a); [discriminate|]. rewrite (IH k H). reflexivity. Qed.
Lemma dget_other : forall d k k', keyeq k' k = false -> dget (ddel d k) k' = dget d k'.
Proof.
  induction d as [|[a b] d IH]; intros k k' H; cbn [dget ddel]; [reflexivity|]. destruct (keyeq k a) eqn:E.
  - rewrite (keyeq_cong_r _ _ k' E) in H. rewrite H. reflexivity.
  - cbn [dget]. destruct (keyeq k' a); [reflexivity|]. apply IH. exact H.
Qed.

Definition labels (c : cls) : list pyval := [VClass c; VInt (c_id c); VStr (cls_fullname c)].
Definition apart (c c' : cls) : bool := forallb (fun k => forallb (fun k' => negb (keyeq k' k)) (labels c')) (labels c).

Lemma remove_le : forall d c, pairs (remove d c) <= pairs d.
Proof. intros d c. unfold remove. eapply Nat.le_trans; [apply ddel_le|]. eapply Nat.le_trans; [apply ddel_le|]. apply ddel_le. Qed.
Lemma extract_one : forall d c dflt v, extract (VDict d) c dflt = Ok v -> weight v + pairs (remove d c) <= pairs d + weight dflt.
Proof.
  intros d c dflt v H. unfold extract in H. cbn [map_get bind] in H. unfold remove.
  destruct (dget d (VClass c)) as [w|] eqn:E1; [injection H as <-; apply dget_ddel in E1|].
  { pose proof (ddel_le (ddel d (VClass c)) (VInt (c_id c))). pose proof (ddel_le (ddel (ddel d (VClass c)) (VInt (c_id c))) (VStr (cls_fullname c))). lia. }
  rewrite (ddel_gone _ _ E1). destruct (dget d (VInt (c_id c))) as [w|] eqn:E2; [injection H as <-; apply dget_ddel in E2|].
  { pose proof (ddel_le (ddel d (VInt (c_id c))) (VStr (cls_fullname c))). lia. }
  rewrite (ddel_gone _ _ E2). destruct (dget d (VStr (cls_fullname c))) as [w|] eqn:E3; injection H as <-; [apply dget_ddel in E3; lia|].
  rewrite (ddel_gone _ _ E3). lia.
Qed.
Lemma extract_other : forall d c c' dflt, apart c c' = true -> extract (VDict (remove d c)) c' dflt = extract (VDict d) c' dflt.
Proof.
  intros d c c' dflt H. unfold extract. cbn [map_get bind]. unfold apart, labels in H. cbn [forallb] in H.
  repeat (apply andb_prop in H as [? H] || match goal with h : (_ && _)%bool = true |- _ => apply andb_prop in h as [? h] end).
  repeat match goal with h : negb _ = true |- _ => apply negb_true_iff in h end.
  unfold remove. rewrite !dget_other by assumption. reflexivity.
Qed.

(** [taken d cs es n m]: the parameters [es] among [cs] are looked up in [d]; the values weigh [n], the
    defaults [m]. *)
Inductive taken (d : dict) : list cls -> list cls -> nat -> nat -> Prop :=
| taken_nil : taken d [] [] 0 0
| taken_cons : forall c cs es v dflt n m, extract (VDict d) c dflt = Ok v -> taken d cs es n m -> forallb (apart c) es = true -> taken d (c :: cs) (c :: es) (weight v + n) (weight dflt + m)
| taken_skip : forall c cs es n m, taken d cs es n m -> forallb (apart c) es = true -> taken d (c :: cs) es n m.

Lemma taken_remove : forall d c cs es n m, taken d cs es n m -> forallb (apart c) es = true -> taken (remove d c) cs es n m.
Proof.
  intros d c cs es n m HT. induction HT as [|c0 cs es v dflt n m HX HT IH HA|c0 cs es n m HT IH HA]; intros H; [constructor| |].
  - cbn [forallb] in H. apply andb_prop in H as [H0 H]. apply taken_cons; [rewrite extract_other by exact H0; exact HX|exact (IH H)|exact HA].
  - apply taken_skip; [exact (IH H)|exact HA].
Qed.
Lemma taken_weight : forall cs d es n m, taken d cs es n m -> n + pairs (remove_all d cs) <= pairs d + m.
Proof.
  unfold remove_all. induction cs as [|c cs IH]; intros d es n m H; inversion H; subst; cbn [fold_left]; [lia| |].
  - match goal with h : taken d cs _ _ _ |- _ => apply (taken_remove _ c) in h; [apply IH in h|assumption] end.
    match goal with h : extract _ _ _ = _ |- _ => apply extract_one in h end. lia.
  - match goal with h : taken d cs _ _ _ |- _ => apply (taken_remove _ c) in h; [apply IH in h|assumption] end. pose proof (remove_le d c). lia.
Qed.

(** ** Building a key *)

Definition kweight (k : key) : nat := pairs (k_store k) + pairs (k_extra k).

Lemma kp_weight : forall kp v w, parse_kp kp v = Ok w -> weight w <= weight v.
Proof.
  intros kp v w H. unfold parse_kp in H. repeat match type of H with (match ?x with _ => _ end) = _ => is_var x; destruct x end;
    first [injection H as <-; apply le_n|exact (from_id_weight _ _ _ _ H)].
Qed.
Lemma transform_weight : forall c allow o acc d, transform_params c allow o acc = Ok d -> pairs d <= pairs acc + pairs o.
Proof.
  intros c allow. induction o as [|[a v] o IH]; intros acc d H; cbn [transform_params] in H; [injection H as <-; cbn [map]; lia|].
  apply bind_ok in H as (kp & HK & H). apply bind_ok in H as (w & HW & H). destruct (hashable kp); [|discriminate]. apply IH in H. apply from_id_weight in HK. apply kp_weight in HW.
  pose proof (dset_weight acc kp w). cbn [map]. rewrite sum_cons. lia.
Qed.
Lemma common_weight : forall c d allow k, common_init c (VDict d) allow = Ok k -> kweight k <= 2 + pairs d.
Proof.
  intros c d allow k H. unfold common_init in H. cbn [opt_items bind] in H. apply bind_ok in H as (e & HE & H). apply transform_weight in HE.
  assert (HI : pairs [(VClass KpKty, kty_of c)] = 2) by (destruct c; reflexivity). rewrite HI in HE.
  destruct (veqb _ _); [|discriminate]. unfold base_init in H. unfold kweight. destruct (dget e _) as [ops|]; [apply bind_ok in H as (n & _ & H); destruct (Nat.eqb n 0)|];
    injection H as <-; cbn [k_store k_extra map list_sum fold_right]; [pose proof (ddel_le e (VClass KpKeyOps))| |]; change (fold_right Nat.add 0 ?x) with (list_sum x) in *; lia.
Qed.
Lemma store_weight : forall k c v, kweight (store_set k c v) <= kweight k + S (weight v).
Proof.
  intros k c v. unfold store_set, kweight. destruct k as [kc s e]. cbn [with_store k_store k_extra]. pose proof (dset_weight s (VClass c) v) as H. change (weight (VClass c)) with 1 in H. lia.
Qed.
Lemma bytes_weight : forall c v k k', set_bytes_param c v k = Ok k' -> kweight k' <= kweight k + S (weight v).
Proof. intros c v k k' H. unfold set_bytes_param in H. destruct v; try discriminate. injection H as <-. apply store_weight. Qed.
Lemma unless_weight : forall c v k k', set_unless_empty c v k = Ok k' -> kweight k' <= kweight k + S (weight v).
Proof. intros c v k k' H. unfold set_unless_empty in H. destruct (veqb _ _); [injection H as <-; lia|]. exact (bytes_weight _ _ _ _ H). Qed.
Lemma k_weight : forall v k k', set_k v k = Ok k' -> kweight k' <= kweight k + S (weight v).
Proof. intros v k k' H. unfold set_k in H. destruct v; try discriminate. destruct (existsb _ _); [|discriminate]. injection H as <-. apply store_weight. Qed.
Lemma crv_weight : forall c t v k k', set_crv c t v k = Ok k' -> kweight k' <= kweight k + S (weight v).
Proof.
  intros c t v k k' H. unfold set_crv in H. apply bind_ok in H as (crv & HC & H). apply from_id_weight in HC. destruct crv; try discriminate. destruct (veqb _ _); [|discriminate].
  injection H as <-. match goal with |- kweight (store_set k c ?w) <= _ => pose proof (store_weight k c w) end. lia.
Qed.
Lemma extra_weight : forall name v k, kweight (extra_set name v k) <= kweight k + S (length (bs name)) + weight v.
Proof.
  intros name v k. unfold extra_set, kweight. destruct k as [kc s e]. cbn [with_extra k_store k_extra]. pose proof (dset_weight e (VStr (bs name)) v) as H.
  change (weight (VStr (bs name))) with (S (length (bs name))) in H. lia.
Qed.
Lemma extra_unless_weight : forall name v k, kweight (extra_unless_empty name v k) <= kweight k + S (length (bs name)) + weight v.
Proof. intros name v k. unfold extra_unless_empty. destruct (veqb _ _); [lia|apply extra_weight]. Qed.

Section Size.
Variable X : crypto.

Lemma coordinate : forall crv n b, to_bytes_checked (curve_size crv) n = Ok b -> weight (VBytes b) <= 67.
Proof.
  intros crv n b H. unfold to_bytes_checked in H. destruct (N.ltb _ _); [|discriminate]. injection H as <-. cbn [weight]. rewrite to_be_length.
  assert (curve_size crv <= 66); [|lia]. unfold curve_size. cbn [find fst]. repeat (destruct (Z.eqb _ crv); [cbn; lia|]). lia.
Qed.
Lemma private_weight : forall crv d x y x' y', ec2_from_private X crv d x y = Ok (x', y') -> weight x' <= weight x + 67 /\ weight y' <= weight y + 67.
Proof.
  intros crv d x y x' y' H. unfold ec2_from_private in H. apply bind_ok in H as (db & _ & H). apply bind_ok in H as ([px py] & _ & H). apply bind_ok in H as (bx & HX & H). apply coordinate in HX.
  apply bind_ok in H as (x1 & H1 & H). apply bind_ok in H as (yb & HY & H). apply coordinate in HY. apply bind_ok in H as (y1 & H2 & H). injection H as <- <-.
  split.
  - clear H2; destruct (truthy x); [destruct (veqb x _); [injection H1 as <-; lia|discriminate]|injection H1 as <-; lia].
  - clear H1; destruct (truthy y); [destruct (veqb y _); [injection H2 as <-; lia|discriminate]|injection H2 as <-; lia].
Qed.
Lemma decompress_weight : forall crv x y, ec2_decompress X crv x = Ok y -> weight y <= 67.
Proof.
  intros crv x y H. unfold ec2_decompress in H. apply bind_ok in H as (xb & _ & H). apply bind_ok in H as ([px py] & _ & H). apply bind_ok in H as (bx & _ & H). destruct (veqb _ _); [|discriminate].
  apply bind_ok in H as (yb & HY & H). apply coordinate in HY. injection H as <-. exact HY.
Qed.

Lemma sym_weight : forall d k, sym_from_dict (VDict d) = Ok k -> kweight k <= pairs d + 144.
Proof.
  intros d k H. unfold sym_from_dict in H. apply bind_ok in H as (v & HV & H). cbn [items_of bind] in H. unfold sym_init in H. apply bind_ok in H as (k0 & HK & H). apply common_weight in HK.
  destruct (veqb _ _); [discriminate|]. apply k_weight in H.
  assert (HT : taken d [SymKpK] [SymKpK] (weight v + 0) (weight (VBytes []) + 0)) by (apply taken_cons; [exact HV|constructor|reflexivity]).
  apply taken_weight in HT. cbn [weight length] in HT. lia.
Qed.
Lemma okp_weight : forall d k, okp_from_dict (VDict d) = Ok k -> kweight k <= pairs d + 144.
Proof.
  intros d k H. unfold okp_from_dict in H. apply bind_ok in H as (x & HX & H). apply bind_ok in H as (dv & HD & H). apply bind_ok in H as (crv & HC & H). cbn [items_of bind] in H.
  unfold okp_init in H. apply bind_ok in H as (k0 & HK & H). apply common_weight in HK. apply bind_ok in H as (nx & _ & H). apply bind_ok in H as (none & _ & H).
  destruct none; [discriminate|]. destruct (is_none crv); [discriminate|]. apply bind_ok in H as (k1 & H1 & H). apply crv_weight in H1. apply bind_ok in H as (k2 & H2 & H). apply unless_weight in H2, H.
  pose proof (taken_cons d _ _ _ _ _ _ _ HX (taken_cons d _ _ _ _ _ _ _ HD (taken_cons d _ _ _ _ _ _ _ HC (taken_nil d) eq_refl) eq_refl) eq_refl) as HT.
  apply taken_weight in HT. cbn [weight length] in HT. lia.
Qed.
Lemma ec2_weight : forall d k, ec2_from_dict X (VDict d) = Ok k -> kweight k <= pairs d + 144.
Proof.
  intros d k H. unfold ec2_from_dict in H. apply bind_ok in H as (x & HX & H). apply bind_ok in H as (y & HY & H). apply bind_ok in H as (dv & HD & H). apply bind_ok in H as (crv & HC & H). cbn [items_of bind] in H.
  unfold ec2_init in H. apply bind_ok in H as (k0 & HK & H). apply common_weight in HK. destruct (is_none crv); [discriminate|]. apply bind_ok in H as (k1 & H1 & H). apply crv_weight in H1.
  destruct (_ && _); [discriminate|]. destruct (_ && _); [discriminate|]. apply bind_ok in H as ([x1 y1] & HP & H).
  assert (HXY : weight x1 <= weight x + 67 /\ weight y1 <= weight y + 67) by (destruct (truthy dv); [exact (private_weight _ _ _ _ _ _ HP)|injection HP as <- <-; lia]).
  apply bind_ok in H as (y2 & HY2 & H). assert (weight y2 <= weight y + 67) by (destruct (_ && _); [apply decompress_weight in HY2; lia|injection HY2 as <-; lia]).
  apply bind_ok in H as (k2 & H2 & H). apply bind_ok in H as (k3 & H3 & H). apply unless_weight in H2, H3, H.
  pose proof (taken_cons d _ _ _ _ _ _ _ HX (taken_cons d _ _ _ _ _ _ _ HY (taken_cons d _ _ _ _ _ _ _ HD (taken_cons d _ _ _ _ _ _ _ HC (taken_nil d) eq_refl) eq_refl) eq_refl) eq_refl) as HT.
  apply taken_weight in HT. cbn [weight length] in HT. lia.
Qed.
Lemma rsa_weight : forall d k, rsa_from_dict (VDict d) = Ok k -> kweight k <= pairs d + 144.
Proof.
  intros d k H. unfold rsa_from_dict in H.
  apply bind_ok in H as (e & He & H). apply bind_ok in H as (n & Hn & H). apply bind_ok in H as (dv & Hd & H). apply bind_ok in H as (p & Hp & H). apply bind_ok in H as (q & Hq & H).
  apply bind_ok in H as (dp & Hdp & H). apply bind_ok in H as (dq & Hdq & H). apply bind_ok in H as (qi & Hqi & H). apply bind_ok in H as (oth & Ho & H).
  apply bind_ok in H as (ri & Hri & H). apply bind_ok in H as (di & Hdi & H). apply bind_ok in H as (ti & Hti & H). cbn [items_of bind] in H.
  pose proof (taken_cons d _ _ _ _ _ _ _ He (taken_cons d _ _ _ _ _ _ _ Hn (taken_cons d _ _ _ _ _ _ _ Hd (taken_cons d _ _ _ _ _ _ _ Hp (taken_cons d _ _ _ _ _ _ _ Hq (taken_cons d _ _ _ _ _ _ _ Hdp (taken_cons d _ _ _ _ _ _ _ Hdq (taken_cons d _ _ _ _ _ _ _ Hqi (taken_cons d _ _ _ _ _ _ _ Ho (taken_skip d RSAKpQInv _ _ _ _ (taken_cons d _ _ _ _ _ _ _ Hri (taken_cons d _ _ _ _ _ _ _ Hdi (taken_cons d _ _ _ _ _ _ _ Hti (taken_nil d) eq_refl) eq_refl) eq_refl) eq_refl) eq_refl) eq_refl) eq_refl) eq_refl) eq_refl) eq_refl) eq_refl) eq_refl) eq_refl) as HT.
  apply taken_weight in HT. change (weight (VBytes [])) with 1 in HT. change (weight (VList [])) with 1 in HT.
  unfold rsa_init in H. cbn [ra_n ra_e ra_d ra_p ra_q ra_dp ra_dq ra_qinv ra_other ra_ri ra_di ra_ti] in H. cbv zeta in H.
  apply bind_ok in H as (ok & _ & H). destruct (negb ok); [discriminate|]. apply bind_ok in H as (k0 & HK & H). apply common_weight in HK.
  apply bind_ok in H as (k1 & H1 & H). apply bind_ok in H as (k2 & H2 & H). apply bind_ok in H as (k3 & H3 & H). apply bind_ok in H as (k4 & H4 & H). apply bind_ok in H as (k5 & H5 & H).
  apply bind_ok in H as (k6 & H6 & H). apply bind_ok in H as (k7 & H7 & H). apply bind_ok in H as (k8 & H8 & H). apply bytes_weight in H1, H2. apply unless_weight in H3, H4, H5, H6, H7, H8.
  injection H as <-. set (oth' := if is_none oth then VList [] else oth).
  assert (weight oth' <= weight oth) by (unfold oth'; destruct oth; cbn; lia).
  set (k9 := if truthy oth' then extra_set "other" oth' k8 else k8).
  assert (kweight k9 <= kweight k8 + 6 + weight oth') by (unfold k9; destruct (truthy oth'); [exact (extra_weight "other" oth' k8)|lia]).
  pose proof (extra_unless_weight "r_i" ri k9). pose proof (extra_unless_weight "d_i" di (extra_unless_empty "r_i" ri k9)).
  pose proof (extra_unless_weight "t_i" ti (extra_unless_empty "d_i" di (extra_unless_empty "r_i" ri k9))).
  change (length (bs "r_i")) with 3 in *. change (length (bs "d_i")) with 3 in *. change (length (bs "t_i")) with 3 in *. lia.
Qed.
Lemma dict_key_weight : forall d k, from_dict X (VDict d) = Ok k -> kweight k <= pairs d + 144.
Proof.
  assert (HD : forall v d k, dispatch_kty X v (VDict d) = Ok k -> kweight k <= pairs d + 144).
  { intros v d k H. unfold dispatch_kty in H. destruct (negb _); [discriminate|]. destruct (key_type_lookup _ _) as [[]|]; try discriminate;
      [exact (sym_weight _ _ H)|exact (okp_weight _ _ H)|exact (ec2_weight _ _ H)|exact (rsa_weight _ _ H)]. }
  intros d k H. unfold from_dict in H. cbn [map_get bind] in H. destruct (dget d _); [exact (HD _ _ _ H)|]. destruct (dget d _); [exact (HD _ _ _ H)|]. destruct (dget d _); [exact (HD _ _ _ H)|discriminate].
Qed.

Lemma lift_no_key : forall c imm v, lift imm c = Ok v -> forall kc s e, v <> VKey kc s e.
Proof.
  induction c as [n|n|b|b|l HF|l HF|t c IH|n|n|w b|] using cbor_ind'; intros imm v H kc s e; cbn [lift] in H; try (injection H as <-; discriminate).
  - apply bind_ok in H as (vs & _ & H). injection H as <-. destruct imm; discriminate.
  - apply bind_ok in H as (vs & _ & H). injection H as <-. discriminate.
  - apply bind_ok in H as (w & HW & H). specialize (IH _ _ HW kc s e).
    destruct (N.eqb t 2); [destruct w; try discriminate H; injection H as <-; discriminate|].
    destruct (N.eqb t 3); [destruct w; try discriminate H; injection H as <-; discriminate|].
    destruct (N.eqb t 55799); [injection H as <-; exact IH|]. destruct (is_special_tag t); injection H as <-; discriminate.
  - injection H as <-. destruct (N.eqb n 20); [discriminate|]. destruct (N.eqb n 21); [discriminate|]. destruct (N.eqb n 22); discriminate.
Qed.
Lemma key_decode_weight : forall b k, key_decode X (VBytes b) = Ok k -> weight (kval k) <= length b + 144.
Proof.
  intros b k H. unfold key_decode in H. apply bind_ok in H as (m & HM & H). cbn [loads] in HM. pose proof (loads_weight _ _ HM) as HW.
  unfold loads_bytes in HM. apply bind_ok in HM as ([c r] & _ & HM). pose proof (lift_no_key _ _ _ HM) as HN.
  destruct m; try discriminate H; [|exfalso; eapply HN; reflexivity]. apply dict_key_weight in H. cbn [weight] in HW. unfold kval, kweight in *. cbn [weight]. lia.
Qed.
End Size.
