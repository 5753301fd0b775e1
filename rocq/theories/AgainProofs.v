(** Lemmas about encoding the same message again (C128). *)
From Coq Require Import NArith ZArith Bool String Lia.
From Coq Require Import Init.Byte List.
From Verif Require Import Bytes BytesProofs Value ValueProofs Cbor CborProofs Registry Crypto SpecCrypto Keys Algorithms Headers Messages Recipients
  SpecAlg SpecMsg SpecRcpt RcptProofs SpecRcptTrip RcptTrip RcptTrip2 RcptTrip4 AcceptProofs SpecAgain.
Import ListNotations.
Local Open Scope result_scope.

Section Again.
Variable X : crypto.

(** ** Wrapping *)

Lemma oaep_kind : forall a h, alg_kind a = Some (AOaep h) -> exists z, In z oaep_algs /\ a = alg z.
Proof.
  intros a h H. apply kind_in in H as (z & -> & H). exists z. split; [|reflexivity]. unfold alg_defs in H. cbn [In] in H.
  repeat (destruct H as [H|H]; [try discriminate H; injection H as <- _; cbn; tauto|]). destruct H.
Qed.

Lemma wrap_seed : forall n n' a k d, (forall z, In z oaep_algs -> a <> alg z) -> alg_key_wrap X n a k d = alg_key_wrap X n' a k d.
Proof.
  intros n n' a k d H. unfold alg_key_wrap. destruct (alg_kind a) as [[]|] eqn:E; try reflexivity.
  apply oaep_kind in E as (z & HZ & ->). exfalso. exact (H z HZ eq_refl).
Qed.

Lemma func_no_oaep : forall a wf, get_key_wrap_func a = Ok wf -> forall z, In z oaep_algs -> wf <> alg z.
Proof.
  intros a wf H z HZ E. subst wf. unfold get_key_wrap_func in H. destruct (alg_kind a) as [k|] eqn:EK; [|discriminate].
  apply kind_in in EK as (y & _ & EK). unfold alg_defs in EK. cbn [In] in EK.
  repeat (destruct EK as [EK|EK]; [injection EK as _ <-; try discriminate H; unfold alg in H; injection H as H; subst z; cbn in HZ; intuition discriminate|]).
  destruct EK.
Qed.

Lemma wrap_some : forall n a k d w, alg_key_wrap X n a k (vopt d) = Ok w -> d <> None.
Proof.
  intros n a k [d|] w H; [discriminate|]. unfold alg_key_wrap in H. destruct (alg_kind a) as [[]|]; try discriminate H;
    apply bind_ok in H as (? & _ & H); discriminate H.
Qed.

Lemma kw_again : forall n n' c subs subs' w, ~ uses oaep_algs c -> kw_encrypt X n c subs = Ok w ->
  kw_encrypt X n' c subs' = Ok w /\ payload c <> None.
Proof.
  intros n n' c subs subs' w HO H. unfold kw_encrypt in *. destruct (get_attr c Algorithm) as [a|e] eqn:EA; [|discriminate]. cbn [bind] in *.
  assert (HN : forall z, In z oaep_algs -> a <> alg z) by (intros z HZ ->; apply HO; exists z; auto).
  destruct (negb (Nat.eqb _ 0)); [discriminate|]. destruct (is_none a); [discriminate|].
  destruct (alg_in a aes_kw) as [[]|e]; cbn [bind] in *; [| |discriminate].
  - unfold kw_kek_encrypt in *. destruct (ckey c) as [k|].
    + destruct (prop_get k PK) as [kb|e]; cbn [bind] in *; [|discriminate]. destruct (sym_with kb a _) as [kek|e]; cbn [bind] in *; [|discriminate].
      destruct (key_verify kek KSym a _) as [u|e]; cbn [bind] in *; [|discriminate]. split; [|exact (wrap_some _ _ _ _ _ H)].
      rewrite <- H. apply wrap_seed. exact HN.
    + apply bind_ok in H as (kb & H & _). destruct subs; [discriminate|]. apply bind_ok in H as (u & _ & H).
      destruct (has_class RAgree _); [discriminate|]. destruct (_ || _); [|discriminate]. apply bind_ok in H as (? & _ & H). discriminate H.
  - destruct (alg_in a oaep) as [[]|e]; cbn [bind] in *; [|discriminate|discriminate]. destruct (ckey c) as [kek|]; [|discriminate].
    destruct (key_verify kek KRSA a _) as [u|e]; cbn [bind] in *; [|discriminate]. split; [|exact (wrap_some _ _ _ _ _ H)].
    rewrite <- H. apply wrap_seed. exact HN.
Qed.

Lemma kakw_again : forall n n' c c1 w, kakw_encrypt X n c = (c1, Ok w) -> kakw_encrypt X n' c1 = (c1, Ok w) /\ payload c1 <> None.
Proof.
  intros n n' c c1 w H. pose proof (kakw_but X n c c1 w H) as [HB HK]. pose proof (but_get c c1 Algorithm HB eq_refl) as HG.
  destruct HB as (_ & _ & HL & _). unfold kakw_encrypt in *. rewrite HL, HG. destruct (is_none (dget_or _ _ _)); [discriminate|].
  destruct (get_attr c Algorithm) as [a|e]; [|discriminate]. destruct (is_none a); [discriminate|].
  match type of H with (let '(_, _) := ?t in _) = _ => destruct t as [c2 r] end. apply pair_equal_spec in H as [-> H].
  apply bind_ok in H as (u & _ & H). rewrite HG in H. cbn [bind] in H. apply bind_ok in H as (wf & HW & H).
  apply bind_ok in H as (kb & HKB & H). apply bind_ok in H as (kek & HKEK & H).
  destruct (ckey c1) as [k|] eqn:EK1; [|congruence]. cbn [bind]. rewrite HG. cbn [bind]. rewrite HW. cbn [bind].
  rewrite EK1, HKB. cbn [bind]. rewrite HKEK. cbn [bind].
  split; [|exact (wrap_some _ _ _ _ _ H)]. rewrite <- H. f_equal. apply wrap_seed. exact (func_no_oaep a wf HW).
Qed.

(** ** Encoding recipients *)

Definition again (r : rcpt) (v : pyval) : Prop := forall n, exists n', rcpt_encode X n r = ((n', r), Ok v).
Definition again_all (l : list rcpt) (vs : list pyval) : Prop := forall n, exists n', rcpts_encode X n l = ((n', l), Ok vs).

(** What encoding leaves: the core of a recipient with a key, and the payload of every one. *)
Definition same_but (r r1 : rcpt) : Prop :=
  r_class r1 = r_class r /\ payload (r_core r1) = payload (r_core r) /\ (ckey (r_core r) <> None -> r_core r1 = r_core r).

Fixpoint height (r : rcpt) : nat := match r with Rcpt _ _ _ _ subs => S (list_sum (map height subs)) end.

Lemma finish_again : forall id rc ctx subs n c items n' r1 v,
  (forall n n' l' vs, rcpts_encode X n subs = ((n', l'), Ok vs) -> again_all l' vs) ->
  finish X id rc ctx subs n c items = ((n', r1), Ok v) ->
  exists subs', r1 = Rcpt id rc c ctx subs' /\ List.length subs' = List.length subs /\
    forall n, exists n', finish X id rc ctx subs' n c items = ((n', r1), Ok v).
Proof.
  intros id rc ctx subs n c items n' r1 v HS H. unfold finish in H. destruct subs as [|s subs].
  - injection H as <- <- <-. exists []. split; [reflexivity|]. split; [reflexivity|]. intros n0. eexists. reflexivity.
  - destruct (rcpts_encode X n (s :: subs)) as [[n1 s'] [vs|e]] eqn:E; [|discriminate]. pose proof (HS _ _ _ _ E) as HA.
    assert (HL : List.length s' = List.length (s :: subs)).
    { clear - E. revert n n1 s' vs E. generalize (s :: subs). induction l as [|r l IH]; intros n n1 s' vs E; cbn [rcpts_encode] in E.
      - injection E as _ <- _. reflexivity.
      - destruct (rcpt_encode X n r) as [[n2 r'] [v|e]]; [|discriminate]. destruct (rcpts_encode X n2 l) as [[n3 l'] [vs'|e]] eqn:E2; [|discriminate].
        injection E as _ <- _. cbn [List.length]. rewrite (IH _ _ _ _ E2). reflexivity. }
    injection H as <- <- <-. exists s'. split; [reflexivity|]. split; [exact HL|]. intros n0. unfold finish. destruct s' as [|s1 s']; [discriminate|].
    destruct (HA n0) as (n2 & ->). eexists. reflexivity.
Qed.

Lemma all_again : forall k l, list_sum (map height l) < k -> Forall no_oaep l -> forall n n' l' vs, rcpts_encode X n l = ((n', l'), Ok vs) ->
  again_all l' vs /\ Forall2 same_but l l'.
Proof.
  induction k as [|k IHk]; [lia|]. induction l as [|r l IHl]; intros HK HF n n' l' vs H.
  - injection H as <- <- <-. split; [|constructor]. intros n0. eexists. reflexivity.
  - cbn [map list_sum fold_right] in HK. change (fold_right Nat.add 0 (map height l)) with (list_sum (map height l)) in HK.
    inversion HF as [|? ? HR HFl]; subst.
    assert (HE : forall n n' r1 v, rcpt_encode X n r = ((n', r1), Ok v) -> again r1 v /\ same_but r r1).
    { clear H n n' l' vs IHl. intros n n' r1 v H. destruct HR as [id rc c ctx subs HO HSub]. cbn [height] in HK.
      assert (HA : forall n n' l' vs, rcpts_encode X n subs = ((n', l'), Ok vs) -> again_all l' vs).
      { intros n0 n1 l1 vs1 H1. eapply IHk; [|exact HSub|exact H1]. lia. }
      destruct rc.
      - cbn [rcpt_encode] in H. injection H as _ <- H. split; [|repeat (split; [reflexivity|]); reflexivity].
        intros n0. exists n0. cbn [rcpt_encode]. rewrite H. reflexivity.
      - rewrite encode_kw in H. destruct (bind (phdr_encoded c) _) as [[p w]|e] eqn:EB; [|discriminate].
        apply bind_ok in EB as (p' & EP & EB). apply bind_ok in EB as (w' & EW & EB). injection EB as -> ->.
        apply finish_again in H as (subs' & -> & _ & H); [|exact HA]. split; [|repeat (split; [reflexivity|]); reflexivity].
        intros n0. rewrite encode_kw. rewrite EP. cbn [bind]. rewrite (proj1 (kw_again _ n0 _ _ subs' _ HO EW)). cbn [bind]. apply H.
      - cbn [rcpt_encode] in H. destruct (bind (get_attr c Algorithm) _) as [[a pk]|e] eqn:EA; [|discriminate].
        match type of H with (let '(c1, res) := ?st in _) = _ => destruct st as [c1 res] eqn:ES end.
        destruct (bind res _) as [p|e] eqn:EB; [|discriminate].
        assert (HB : but_ephemeral c c1 /\ ckey c1 <> None /\ (ckey c <> None -> c1 = c)).
        { destruct (ckey c) eqn:EK.
          - injection ES as <- _. split; [apply but_refl|]. split; [congruence|reflexivity].
          - destruct (alg_in a es_hkdf) as [[]|]; [|injection ES as <- <-; discriminate EB|injection ES as <- <-; discriminate EB].
            destruct res as [[]|]; [|discriminate EB]. split; [eapply setup_but; exact ES|]. split; [|congruence].
            apply setup_ephemeral_ok in ES as (k0 & -> & _). discriminate. }
        destruct HB as (HB & HK1 & HK2). pose proof (but_get c c1 Algorithm HB eq_refl) as HG. pose proof HB as (_ & _ & HL & _ & HP & _).
        rewrite <- HG, <- HL in EA. destruct res as [u|]; [|discriminate]. cbn [bind] in EB.
        change (finish X id RAgree ctx subs (N.succ n) c1 [VBytes p; VDict (uhdr c1); VBytes []] = (n', r1, Ok v)) in H.
        apply finish_again in H as (subs' & -> & HLen & H); [|exact HA].
        split; [|split; [reflexivity|]; split; [exact HP|exact HK2]].
        intros n0. cbn [rcpt_encode]. rewrite EA. destruct (ckey c1) as [k1|]; [|congruence]. cbn [bind]. rewrite HLen, EB.
        destruct (H (N.succ n0)) as (n2 & H2). exists n2. exact H2.
      - rewrite encode_kakw in H. destruct (bind (phdr_encoded c) _) as [p|e] eqn:EB; [|discriminate].
        destruct (kakw_encrypt X n c) as [c1 [w|e]] eqn:EK; [|discriminate]. pose proof (kakw_but X n c c1 w EK) as [HB HK1].
        pose proof (but_get c c1 Algorithm HB eq_refl) as HG. pose proof (but_encoded _ _ HB) as HPE. pose proof HB as (_ & _ & _ & _ & HP & _).
        rewrite <- HG, <- HPE in EB. apply finish_again in H as (subs' & -> & _ & H); [|exact HA].
        split; [|split; [reflexivity|]; split; [exact HP|]].
        + intros n0. rewrite encode_kakw, EB, (proj1 (kakw_again n n0 c c1 w EK)). apply H.
        + destruct (kakw_state X n c c1 w EK) as [[_ ->]|(HN & _)]; [reflexivity|]. cbn [r_core]. congruence. }
    cbn [rcpts_encode] in H. destruct (rcpt_encode X n r) as [[n1 r1] [v|e]] eqn:ER; [|discriminate]. apply HE in ER as [A1 S1].
    destruct (rcpts_encode X n1 l) as [[n2 l2] [vs2|e]] eqn:EL; [|discriminate]. apply IHl in EL as [A2 S2]; [|lia|exact HFl].
    injection H as <- <- <-. split; [|constructor; assumption]. intros n0. cbn [rcpts_encode]. destruct (A1 n0) as (n3 & ->).
    destruct (A2 n3) as (n4 & ->). eexists. reflexivity.
Qed.

Lemma rcpts_again : forall l n n' l' vs, Forall no_oaep l -> rcpts_encode X n l = ((n', l'), Ok vs) ->
  again_all l' vs /\ Forall2 same_but l l'.
Proof. intros l n n' l' vs HF. apply (all_again (S (list_sum (map height l)))); [lia|exact HF]. Qed.
End Again.
