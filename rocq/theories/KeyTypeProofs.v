(** Proofs about keys with two key types (C100). *)
From Coq Require Import NArith ZArith Bool String.
From Coq Require Import Init.Byte List.
From Verif Require Import Bytes BytesProofs Value ValueProofs Registry RegistryProofs Crypto Keys SpecRegistry SpecTrip InitProofs KeyClass SpecKeyClass KeyClassProofs.
Import ListNotations.
Local Open Scope result_scope.
Local Open Scope list_scope.

Lemma other_type t n c : In (t, n) (registered FKty) -> VClass t <> kty_of c -> veqb (VClass t) (kty_of c) = false.
Proof.
  intros HT HN. cbn in HT.
  repeat (destruct HT as [HT|HT]; [injection HT as <- <-; destruct c; first [reflexivity|elim HN; reflexivity]|]). destruct HT.
Qed.

Section Two.
Variables (a v : pyval) (t : cls) (n : bytes).
Hypothesis HA : spells KpKty (bs "KTY") a.
Hypothesis HT : In (t, n) (registered FKty).
Hypothesis HV : spells t n v.

Lemma common_two c d allow k : common_init c (VDict d) allow = Ok k -> VClass t <> kty_of c ->
  common_init c (VDict (d ++ [(a, v)])) allow = Err CoseIllegalKeyType.
Proof.
  intros H HN. unfold common_init in *. cbn [opt_items bind] in *. apply bind_ok in H as (h & HH & _).
  rewrite transform_app, HH. cbn [bind transform_params].
  rewrite (from_id_spells _ _ _ _ _ (kty_registered c) HA). cbn [bind].
  change (parse_kp (VClass KpKty) v) with (from_id FKty false v). rewrite (from_id_spells _ _ _ _ _ HT HV). cbn [bind].
  change (hashable (VClass KpKty)) with true. cbn iota. cbn [bind].
  unfold dget_or. rewrite dget_dset_same by reflexivity.
  replace (veqb (VClass t) (kty_of c)) with false; [reflexivity|].
  symmetry. eapply other_type; eassumption.
Qed.

Lemma sym_two d kv allow k : sym_init kv (VDict d) allow = Ok k -> VClass t <> KtySymmetric ->
  sym_init kv (VDict (d ++ [(a, v)])) allow = Err CoseIllegalKeyType.
Proof. intros H HN. unfold sym_init in *. apply bind_ok in H as (k0 & HK & _). rewrite (common_two _ _ _ _ HK HN). reflexivity. Qed.

Lemma okp_two d crv x y allow k : okp_init crv x y (VDict d) allow = Ok k -> VClass t <> KtyOKP ->
  okp_init crv x y (VDict (d ++ [(a, v)])) allow = Err CoseIllegalKeyType.
Proof. intros H HN. unfold okp_init in *. apply bind_ok in H as (k0 & HK & _). rewrite (common_two _ _ _ _ HK HN). reflexivity. Qed.

Lemma ec2_two X d crv x y z allow k : ec2_init X crv x y z (VDict d) allow = Ok k -> VClass t <> KtyEC2 ->
  ec2_init X crv x y z (VDict (d ++ [(a, v)])) allow = Err CoseIllegalKeyType.
Proof. intros H HN. unfold ec2_init in *. apply bind_ok in H as (k0 & HK & _). rewrite (common_two _ _ _ _ HK HN). reflexivity. Qed.

Lemma rsa_two d r allow k : rsa_init r (VDict d) allow = Ok k -> VClass t <> KtyRSA ->
  rsa_init r (VDict (d ++ [(a, v)])) allow = Err CoseIllegalKeyType.
Proof.
  intros H HN. unfold rsa_init in *. cbv zeta in *. apply bind_ok in H as (ok & HO & H). rewrite HO. cbn [bind].
  destruct (negb ok); [discriminate|]. apply bind_ok in H as (k0 & HK & _). rewrite (common_two _ _ _ _ HK HN). reflexivity.
Qed.
End Two.

(** ** Dictionaries *)

Section Dict.
Variables (u : bytes) (v : pyval) (t : cls) (n : bytes).
Hypothesis HU : upper u = bs "KTY".
Hypothesis HT : In (t, n) (registered FKty).
Hypothesis HV : spells t n v.

Lemma get_other d l : keyeq l (VStr u) = false -> dget (d ++ [(VStr u, v)]) l = dget d l.
Proof. intros H. rewrite dget_app. cbn [dget]. rewrite H. destruct (dget d l); reflexivity. Qed.

Lemma name_other w : upper w <> bs "KTY" -> keyeq (VStr w) (VStr u) = false.
Proof.
  intros H. destruct (keyeq (VStr w) (VStr u)) eqn:E; [|reflexivity]. elim H. rewrite <- HU. f_equal.
  rewrite keyeq_str in E. apply bytes_eqb_eq in E. exact E.
Qed.

Lemma extract_other d p dflt : upper (cls_fullname p) <> bs "KTY" ->
  extract (VDict (d ++ [(VStr u, v)])) p dflt = extract (VDict d) p dflt.
Proof.
  intros H. unfold extract. cbn [map_get bind]. rewrite !get_other by (first [reflexivity|apply name_other; exact H]). reflexivity.
Qed.

Lemma del_other d l : keyeq l (VStr u) = false -> ddel (d ++ [(VStr u, v)]) l = ddel d l ++ [(VStr u, v)].
Proof.
  intros H. induction d as [|[k w] d IH]; cbn [app ddel].
  - rewrite H. reflexivity.
  - destruct (keyeq l k); [reflexivity|]. cbn [app]. rewrite IH. reflexivity.
Qed.

Lemma remove_other l : Forall (fun p => upper (cls_fullname p) <> bs "KTY") l -> forall d,
  remove_all (d ++ [(VStr u, v)]) l = remove_all d l ++ [(VStr u, v)].
Proof.
  induction 1 as [|p l HP _ IH]; intros d; [reflexivity|]. unfold remove_all in *. cbn [fold_left].
  replace (remove (d ++ [(VStr u, v)]) p) with (remove d p ++ [(VStr u, v)]); [apply IH|].
  unfold remove. rewrite !del_other by (first [reflexivity|apply name_other; exact HP]). reflexivity.
Qed.

Ltac ext H := match type of H with bind (extract _ ?p ?w) _ = _ =>
  rewrite (extract_other _ p w) by discriminate; let x := fresh "x" in let E := fresh "E" in
  apply bind_ok in H as (x & E & H); rewrite E; cbn [bind]; clear E end.

Lemma sym_dict_two d k : sym_from_dict (VDict d) = Ok k -> VClass t <> KtySymmetric ->
  sym_from_dict (VDict (d ++ [(VStr u, v)])) = Err CoseIllegalKeyType.
Proof.
  intros H HN. unfold sym_from_dict in *. repeat ext H. cbn [items_of bind] in H |- *.
  rewrite remove_other by (repeat constructor; discriminate).
  eapply sym_two; [exact HU|exact HT|exact HV|exact H|exact HN].
Qed.

Lemma okp_dict_two d k : okp_from_dict (VDict d) = Ok k -> VClass t <> KtyOKP ->
  okp_from_dict (VDict (d ++ [(VStr u, v)])) = Err CoseIllegalKeyType.
Proof.
  intros H HN. unfold okp_from_dict in *. repeat ext H. cbn [items_of bind] in H |- *.
  rewrite remove_other by (repeat constructor; discriminate).
  eapply okp_two; [exact HU|exact HT|exact HV|exact H|exact HN].
Qed.

Lemma ec2_dict_two X d k : ec2_from_dict X (VDict d) = Ok k -> VClass t <> KtyEC2 ->
  ec2_from_dict X (VDict (d ++ [(VStr u, v)])) = Err CoseIllegalKeyType.
Proof.
  intros H HN. unfold ec2_from_dict in *. repeat ext H. cbn [items_of bind] in H |- *.
  rewrite remove_other by (repeat constructor; discriminate).
  eapply ec2_two; [exact HU|exact HT|exact HV|exact H|exact HN].
Qed.

Lemma rsa_dict_two d k : rsa_from_dict (VDict d) = Ok k -> VClass t <> KtyRSA ->
  rsa_from_dict (VDict (d ++ [(VStr u, v)])) = Err CoseIllegalKeyType.
Proof.
  intros H HN. unfold rsa_from_dict in *. repeat ext H. cbn [items_of bind] in H |- *.
  rewrite remove_other by (repeat constructor; discriminate).
  eapply rsa_two; [exact HU|exact HT|exact HV|exact H|exact HN].
Qed.


Lemma dispatch_two X w d k : dispatch_kty X w (VDict d) = Ok k -> VClass t <> kty_of (k_cls k) ->
  dispatch_kty X w (VDict (d ++ [(VStr u, v)])) = Err CoseIllegalKeyType.
Proof.
  intros H HN. unfold dispatch_kty in *. destruct (negb (hashable w)); [discriminate|].
  destruct (key_type_lookup key_types w) as [[]|]; [| | | |discriminate].
  - destruct (class_call X KSym _ _ H) as [[E _] _]. rewrite E in HN. eapply sym_dict_two; eassumption.
  - destruct (class_call X KOKP _ _ H) as [[E _] _]. rewrite E in HN. eapply okp_dict_two; eassumption.
  - destruct (class_call X KEC2 _ _ H) as [[E _] _]. rewrite E in HN. eapply ec2_dict_two; eassumption.
  - destruct (class_call X KRSA _ _ H) as [[E _] _]. rewrite E in HN. eapply rsa_dict_two; eassumption.
Qed.

Lemma from_dict_two X d k : from_dict X (VDict d) = Ok k -> VClass t <> kty_of (k_cls k) ->
  from_dict X (VDict (d ++ [(VStr u, v)])) = Err CoseIllegalKeyType.
Proof.
  intros H HN. unfold from_dict in *. cbn [map_get bind] in *.
  rewrite (get_other d (VClass KpKty)), (get_other d (VInt 1)) by reflexivity.
  destruct (dget d (VClass KpKty)); [eapply dispatch_two; eassumption|].
  destruct (dget d (VInt 1)); [eapply dispatch_two; eassumption|].
  rewrite dget_app. destruct (dget d (VStr (bs "KTY"))); [eapply dispatch_two; eassumption|discriminate].
Qed.
End Dict.
