(** Which exceptions decoding a key can raise (C100). *)
From Coq Require Import NArith ZArith Bool String Lia.
From Coq Require Import Init.Byte List.
From Verif Require Import Bytes Value ValueProofs Cbor CborProofs Registry Crypto Keys Headers Algorithms Messages Recipients SpecKeys KeyProofs SpecErr SpecKeyErr ErrProofs.
Import ListNotations.
Local Open Scope result_scope.

Section KeyErr.
Variable X : crypto.
Definition key_exn (e : exn) : Prop := In e cose_refusals \/ In e other_refusals \/ curve_failure X e.
Local Notation W := (within key_exn).
Ltac done_err := apply within_err; unfold key_exn, cose_refusals, other_refusals; cbn [In]; tauto.
Ltac dstep := match goal with
  | |- within _ (Ok _) => apply within_ok
  | |- within _ (Err _) => done_err
  | |- within _ (bind _ _) => apply within_bind; [|intros ? _]
  | |- within _ (match ?x with _ => _ end) => destruct x
  end.
Ltac dgo := repeat dstep.

Lemma loads_W : forall v, W (loads v).
Proof.
  intros v. unfold loads. destruct v; try done_err. eapply within_impl; [|apply loads_bytes_exn].
  intros e HE. unfold key_exn, cose_refusals, other_refusals. cbn in *. intuition.
Qed.
Lemma from_id_W : forall v f allow, W (from_id f allow v).
Proof.
  fix IH 1. intros v f allow. destruct v; cbn [from_id]; try (dgo; fail).
  apply within_bind; [|intros ? _; apply within_ok]. induction l as [|x l IHl]; [apply within_ok|]. cbn [mapM].
  apply within_bind; [apply IH|]. intros ? _. apply within_bind; [exact IHl|]. intros ? _. apply within_ok.
Qed.
Lemma parse_kp_W : forall kp v, W (parse_kp kp v).
Proof. intros. unfold parse_kp. repeat match goal with |- within _ (match ?x with _ => _ end) => destruct x end; first [apply from_id_W|apply within_ok]. Qed.
Lemma transform_params_W : forall c allow o acc, W (transform_params c allow o acc).
Proof.
  intros c allow o. induction o as [|[a v] o IH]; intros acc; cbn [transform_params]; [apply within_ok|].
  apply within_bind; [apply from_id_W|intros ? _]. apply within_bind; [apply parse_kp_W|intros ? _].
  destruct (hashable _); [apply IH|dgo].
Qed.
Lemma py_len_W : forall v, W (py_len v).
Proof. intros v. unfold py_len. dgo. Qed.
Lemma base_init_W : forall c d, W (base_init c d).
Proof. intros. unfold base_init. destruct (dget _ _); [|apply within_ok]. apply within_bind; [apply py_len_W|intros ? _]. dgo. Qed.
Lemma common_init_W : forall c o a, W (common_init c (VDict o) a).
Proof.
  intros. unfold common_init, opt_items. apply within_bind; [dgo|intros ? _]. apply within_bind; [apply transform_params_W|intros ? _].
  destruct (veqb _ _); [apply base_init_W|done_err].
Qed.
Lemma set_bytes_W : forall c v k, W (set_bytes_param c v k).
Proof. intros. unfold set_bytes_param. dgo. Qed.
Lemma set_unless_W : forall c v k, W (set_unless_empty c v k).
Proof. intros. unfold set_unless_empty. destruct (veqb _ _); [apply within_ok|apply set_bytes_W]. Qed.
Lemma set_crv_W : forall c t v k, W (set_crv c t v k).
Proof. intros. unfold set_crv. apply within_bind; [apply from_id_W|intros ? _]. dgo. Qed.
Lemma set_k_W : forall v k, W (set_k v k).
Proof. intros. unfold set_k. dgo. Qed.
Lemma as_bytes_W : forall v, W (as_bytes v).
Proof. intros. unfold as_bytes. dgo. Qed.
Lemma to_bytes_W : forall c p n, In (c, curve_size c) ec2_curves -> (n = fst p \/ n = snd p) ->
  (exists d, x_ec_pub X c d = Ok p) \/ (exists b, x_ec_point X c b = Ok p) -> W (to_bytes_checked (curve_size c) n).
Proof.
  intros c p n HI HN HX. unfold to_bytes_checked. destruct (N.ltb n _) eqn:E; [apply within_ok|]. apply within_err. right. right. right. right.
  split; [reflexivity|]. exists c, p. split; [|exact HX]. apply N.ltb_ge in E. exists (curve_size c). split; [exact HI|]. destruct HN as [-> | ->]; auto.
Qed.
Lemma sym_init_W : forall k o a, W (sym_init k (VDict o) a).
Proof. intros. unfold sym_init. apply within_bind; [apply common_init_W|intros ? _]. destruct (veqb _ _); [done_err|apply set_k_W]. Qed.
Lemma okp_init_W : forall c x d o a, W (okp_init c x d (VDict o) a).
Proof.
  intros. unfold okp_init. apply within_bind; [apply common_init_W|intros ? _]. apply within_bind; [apply py_len_W|intros ? _].
  apply within_bind; [dgo; apply py_len_W|intros ? _]. dgo; first [apply set_crv_W|apply set_unless_W].
Qed.
Lemma private_W : forall c d x y, In (c, curve_size c) ec2_curves -> W (ec2_from_private X c d x y).
Proof.
  intros. unfold ec2_from_private. apply within_bind; [apply as_bytes_W|intros db _].
  apply within_bind; [intros e HE; right; right; left; eauto|intros [px py] HP]. dgo; apply (to_bytes_W c (px, py)); cbn [fst snd]; eauto.
Qed.
Lemma decompress_W : forall c x, In (c, curve_size c) ec2_curves -> W (ec2_decompress X c x).
Proof.
  intros. unfold ec2_decompress. apply within_bind; [apply as_bytes_W|intros db _].
  apply within_bind; [intros e HE; right; right; right; left; eauto|intros [px py] HP]. dgo; apply (to_bytes_W c (px, py)); cbn [fst snd]; eauto.
Qed.
Lemma ec2_init_W : forall c x y d o a, W (ec2_init X c x y d (VDict o) a).
Proof.
  intros. unfold ec2_init. apply within_bind; [apply common_init_W|intros ? _]. destruct (is_none c); [done_err|].
  apply within_bind; [apply set_crv_W|intros k1 HC].
  assert (HI : In (crv_id k1, curve_size (crv_id k1)) ec2_curves).
  { apply set_crv_ok in HC as (w & _ & HW & HU). destruct (HW KEC2 eq_refl) as (z & -> & HZ).
    apply ec2_curve_in. apply (curve_ids_kty KEC2). unfold crv_id. apply updates_same in HU. unfold param in HU. rewrite HU. exact HZ. }
  destruct (negb (truthy x) && negb (truthy y) && negb (truthy d)); [done_err|]. destruct (negb (truthy d) && negb (truthy x)); [done_err|].
  apply within_bind; [destruct (truthy d); [apply private_W; exact HI|apply within_ok]|intros [x1 y1] _].
  apply within_bind; [destruct (_ && _); [apply decompress_W; exact HI|apply within_ok]|intros ? _].
  apply within_bind; [apply set_unless_W|intros ? _]. apply within_bind; [apply set_unless_W|intros ? _]. apply set_unless_W.
Qed.
Lemma all_len_W : forall b l, W (all_len b l).
Proof.
  intros b l. induction l as [|v l IH]; cbn [all_len]; [apply within_ok|]. apply within_bind; [apply py_len_W|intros ? _].
  destruct (Bool.eqb _ _); [exact IH|apply within_ok].
Qed.
Lemma rsa_init_W : forall r o a, W (rsa_init r (VDict o) a).
Proof.
  intros. unfold rsa_init, rsa_valid. apply within_bind.
  - apply within_bind; [apply all_len_W|intros ? _]. apply within_bind; [destruct a0; [apply all_len_W|apply within_ok]|intros [] _; [apply within_ok|]].
    apply within_bind; [apply all_len_W|intros ? _]. apply within_bind; [destruct a1; [apply all_len_W|apply within_ok]|intros [] _; [apply within_ok|apply all_len_W]].
  - intros ok _. destruct (negb ok); [done_err|]. apply within_bind; [apply common_init_W|intros ? _].
    do 2 (apply within_bind; [apply set_bytes_W|intros ? _]). do 6 (apply within_bind; [apply set_unless_W|intros ? _]). apply within_ok.
Qed.
Lemma map_get_W : forall m k, W (map_get m k).
Proof. intros. unfold map_get, key_transform. dgo; apply from_id_W. Qed.
Lemma extract_W : forall m c d, W (extract m c d).
Proof. intros. unfold extract. dgo; apply map_get_W. Qed.
Lemma items_of_W : forall m, W (items_of m).
Proof. intros. unfold items_of. dgo. Qed.
Lemma list_update_W : forall l, W (list_update l).
Proof.
  induction l as [|x l IH]; cbn [list_update]; [apply within_ok|]. apply within_bind; [apply py_len_W|intros n _].
  destruct (negb _); [done_err|]. destruct (match x with VList (k :: _) | VTuple (k :: _) => hashable k | _ => true end); [exact IH|done_err].
Qed.
Lemma list_from_dict_W : forall l, W (@Err key (list_from_dict l)).
Proof.
  intros l. unfold list_from_dict. destruct (existsb _ l); [done_err|].
  destruct (existsb _ l); [|destruct (existsb _ l); done_err].
  destruct (nth_error l 1) as [v|]; [|done_err]. destruct (negb _); [done_err|].
  destruct (key_type_lookup _ _) as [c|]; [|done_err].
  assert (HW : W (_ <- mapM (list_extract l) (extracted c) ;; list_update l)).
  { apply within_bind; [|intros ? _; apply list_update_W]. apply within_mapM. intros p _. unfold list_extract.
    destruct (existsb _ l); [done_err|]. destruct (existsb _ l); [destruct (Nat.ltb _ _); [done_err|apply within_ok]|].
    destruct (existsb _ l); [done_err|apply within_ok]. }
  destruct (_ <- mapM (list_extract l) (extracted c) ;; list_update l) as [?|e]; [done_err|].
  apply within_err. exact (HW e eq_refl).
Qed.
Lemma from_dict_W : forall m, W (from_dict X m).
Proof.
  assert (HD : forall v m, W (dispatch_kty X v m)).
  { intros v m. unfold dispatch_kty. destruct (negb _); [done_err|]. destruct (key_type_lookup _ _) as [[]|]; [| | | |done_err].
    - unfold sym_from_dict. apply within_bind; [apply extract_W|intros ? _]. apply within_bind; [apply items_of_W|intros ? _]. apply sym_init_W.
    - unfold okp_from_dict. do 3 (apply within_bind; [apply extract_W|intros ? _]). apply within_bind; [apply items_of_W|intros ? _]. apply okp_init_W.
    - unfold ec2_from_dict. do 4 (apply within_bind; [apply extract_W|intros ? _]). apply within_bind; [apply items_of_W|intros ? _]. apply ec2_init_W.
    - unfold rsa_from_dict. do 12 (apply within_bind; [apply extract_W|intros ? _]). apply within_bind; [apply items_of_W|intros ? _]. apply rsa_init_W. }
  intros m. unfold from_dict. destruct m; try done_err; try apply list_from_dict_W; dgo; first [apply map_get_W|apply HD].
Qed.
Lemma key_decode_W : forall v, W (key_decode X v).
Proof. intros v. unfold key_decode. apply within_bind; [apply loads_W|intros ? _; apply from_dict_W]. Qed.
End KeyErr.

(** The branch of [list_from_dict] where all elements are pairs is not reached. *)
Lemma list_update_fails : forall l, existsb (keyeq (VInt 1)) l = true -> exists e, list_update l = Err e.
Proof.
  induction l as [|x l IH]; intros H; cbn [existsb list_update] in *; [discriminate|]. apply orb_true_iff in H as [H|H].
  - assert (HL : py_len x = Err TypeError) by (destruct x; try reflexivity; discriminate H). rewrite HL. eexists. reflexivity.
  - destruct (py_len x) as [n|e]; [|eexists; reflexivity]. cbn [bind]. destruct (negb _); [eexists; reflexivity|].
    destruct (match x with VList (k :: _) | VTuple (k :: _) => hashable k | _ => true end); [apply IH; exact H|eexists; reflexivity].
Qed.

(** cbor2 builds no key objects. *)
Lemma lift_no_key : forall c imm v, lift imm c = Ok v -> forall k s e, v <> VKey k s e.
Proof.
  induction c as [n|n|b|b|l HF|l HF|t c IH|n|n|w b|] using cbor_ind'; intros imm v H; cbn [lift] in H; try (injection H as <-; discriminate).
  - apply bind_ok in H as (vs & _ & H). injection H as <-. destruct imm; discriminate.
  - apply bind_ok in H as (vs & _ & H). injection H as <-. discriminate.
  - apply bind_ok in H as (x & HX & H).
    destruct (N.eqb t 2); [destruct x; try discriminate; injection H as <-; discriminate|].
    destruct (N.eqb t 3); [destruct x; try discriminate; injection H as <-; discriminate|].
    destruct (N.eqb t 55799); [injection H as <-; exact (IH _ _ HX)|].
    destruct (is_special_tag t); injection H as <-; discriminate.
  - injection H as <-. destruct (N.eqb n 20), (N.eqb n 21), (N.eqb n 22); discriminate.
Qed.
