(** C118: a message holds what was assigned to it last. *)
From Coq Require Import NArith ZArith Bool String.
From Coq Require Import Init.Byte List.
From Verif Require Import Bytes Value Cbor Registry Crypto Keys Headers Messages Toy Fields SpecFields ValueProofs KeyTrip.
Import ListNotations.

Lemma run_cons : forall c o l, msg_run c (o :: l) = msg_run (fst (msg_step c o)) l.
Proof. reflexivity. Qed.
Lemma latest_run : forall A (field : core -> A) gives, (forall c o, field (fst (msg_step c o)) = match gives o with Some a => a | None => field c end) ->
  forall l c, field (msg_run c l) = latest gives (field c) l.
Proof.
  intros A field gives H. induction l as [|o l IH]; intros c; [reflexivity|]. rewrite run_cons, IH. cbn [latest]. rewrite H. reflexivity.
Qed.
Ltac header_step h v := destruct h as [v|v|v|v|? v|?|? v|?]; cbn [hdr_step]; try (destruct v; reflexivity); destruct (hashable _); reflexivity.

(** ** After any history of statements, each field has the value accepted last *)
Theorem C118_payload : forall c l, payload (msg_run c l) = latest gives_payload (payload c) l.
Proof.
  intros c l. apply latest_run. clear. intros c [v|v|v|v|v|v|h]; cbn [msg_step gives_payload]; try (destruct v; reflexivity); try reflexivity. header_step h v.
Qed.
Print Assumptions C118_payload.
Theorem C118_external_data : forall c l, aad (msg_run c l) = latest gives_aad (aad c) l.
Proof.
  intros c l. apply latest_run. clear. intros c [v|v|v|v|v|v|h]; cbn [msg_step gives_aad]; try (destruct v; reflexivity); try reflexivity. header_step h v.
Qed.
Print Assumptions C118_external_data.
Theorem C118_key : forall c l, ckey (msg_run c l) = latest gives_key (ckey c) l.
Proof.
  intros c l. apply latest_run. clear. intros c [v|v|v|v|v|v|h]; cbn [msg_step gives_key]; try (destruct v; reflexivity); try reflexivity. header_step h v.
Qed.
Print Assumptions C118_key.
Theorem C118_algorithm_as_text : forall c l, tstr (msg_run c l) = latest gives_tstr (tstr c) l.
Proof.
  intros c l. apply latest_run. clear. intros c [v|v|v|v|v|v|h]; cbn [msg_step gives_tstr]; try (destruct v; reflexivity); try reflexivity. header_step h v.
Qed.
Print Assumptions C118_algorithm_as_text.

(** Assignments to the local attributes add to those there are: each attribute has the value
    given to it last. *)
Theorem C118_local : forall c l a, (forall d, In (OLocal (VDict d)) l -> dnodup d = true) -> (forall k s e, In (OLocal (VKey k s e)) l -> dnodup s = true) ->
  dget (local (msg_run c l)) a = latest (gives_local a) (dget (local c) a) l.
Proof.
  intros c l a. revert c. induction l as [|o l IH]; intros c HD HK; [reflexivity|]. rewrite run_cons, IH; [|intros d H; apply HD; right; exact H|intros k s e H; apply (HK k s e); right; exact H].
  cbn [latest]. f_equal.
  assert (U : forall d, dnodup d = true -> dget (dupdate (local c) d) a = match dget d a with Some v => Some v | None => dget (local c) a end).
  { intros d ND. rewrite dget_dupdate. rewrite (dget_rev d a ND). reflexivity. }
  destruct o as [v|v|v|v|v|v|h]; cbn [msg_step gives_local]; try (destruct v; reflexivity); try reflexivity.
  - destruct v; try reflexivity; cbn [set_local_attrs fst local with_local].
    + rewrite U; [destruct (dget d a); reflexivity|]. apply HD. left. reflexivity.
    + rewrite U; [destruct (dget store a); reflexivity|]. apply (HK k store extra). left. reflexivity.
  - header_step h v.
Qed.
Print Assumptions C118_local.

(** The headers are what the changes of the headers alone make of them. *)
Theorem C118_headers : forall c l, phdr (msg_run c l) = phdr (hdr_run c (header_ops l)) /\
  uhdr (msg_run c l) = uhdr (hdr_run c (header_ops l)) /\ phdr_raw (msg_run c l) = phdr_raw (hdr_run c (header_ops l)).
Proof.
  assert (S : forall c c' h, phdr c = phdr c' /\ uhdr c = uhdr c' /\ phdr_raw c = phdr_raw c' ->
              phdr (fst (hdr_step c h)) = phdr (fst (hdr_step c' h)) /\ uhdr (fst (hdr_step c h)) = uhdr (fst (hdr_step c' h)) /\ phdr_raw (fst (hdr_step c h)) = phdr_raw (fst (hdr_step c' h))).
  { intros c c' h (A & B & C). destruct h as [v|v|v|v|k v|k|k v|k]; cbn [hdr_step];
      try (destruct v; cbn [fst phdr uhdr phdr_raw with_phdr with_uhdr]; repeat split; congruence);
      destruct (hashable k); cbn [fst phdr uhdr phdr_raw with_phdr with_uhdr]; repeat split; congruence. }
  assert (G : forall l c c', phdr c = phdr c' /\ uhdr c = uhdr c' /\ phdr_raw c = phdr_raw c' ->
    phdr (msg_run c l) = phdr (hdr_run c' (header_ops l)) /\ uhdr (msg_run c l) = uhdr (hdr_run c' (header_ops l)) /\ phdr_raw (msg_run c l) = phdr_raw (hdr_run c' (header_ops l))).
  { induction l as [|o l IH]; intros c c' H; [exact H|]. rewrite run_cons. unfold header_ops in *. cbn [flat_map]. destruct o as [v|v|v|v|v|v|h]; cbn [app msg_step].
    - apply IH. destruct v; exact H.
    - apply IH. destruct v; exact H.
    - apply IH. destruct v; exact H.
    - apply IH. destruct v; exact H.
    - apply IH. exact H.
    - apply IH. destruct v; exact H.
    - apply (IH _ (fst (hdr_step c' h))). apply S. exact H. }
  intros c l. apply G. auto.
Qed.
Print Assumptions C118_headers.

(** So two histories that agree on what was given last to each field, and on the changes of
    the headers, leave the same message, but for the local attributes. *)
Theorem C118_only_the_last_counts : forall c l l', header_ops l = header_ops l' ->
  latest gives_payload (payload c) l = latest gives_payload (payload c) l' -> latest gives_aad (aad c) l = latest gives_aad (aad c) l' ->
  latest gives_key (ckey c) l = latest gives_key (ckey c) l' -> latest gives_tstr (tstr c) l = latest gives_tstr (tstr c) l' ->
  with_local (msg_run c l) [] = with_local (msg_run c l') [].
Proof.
  intros c l l' HH HP HA HK HT. unfold with_local. rewrite !C118_payload, !C118_external_data, !C118_key, !C118_algorithm_as_text, HP, HA, HK, HT.
  destruct (C118_headers c l) as (A & B & C). destruct (C118_headers c l') as (A' & B' & C'). rewrite A, B, C, A', B', C', HH. reflexivity.
Qed.
Print Assumptions C118_only_the_last_counts.

(** ** What is refused *)
Theorem C118_refused : forall c o, (forall h, o <> OHeader h) ->
  (exists e, refused_with o e /\ msg_step c o = (c, Err e)) \/ (snd (msg_step c o) = Ok tt /\ forall e, ~ refused_with o e).
Proof.
  intros c o HO.
  destruct o as [v|v|v|v|v|v|h]; [..|destruct (HO h eq_refl)].
  - destruct v; try (left; exists TypeError; split; [apply RPayload; [discriminate|intros; discriminate]|reflexivity]);
      right; (split; [reflexivity|]); intros e H; inversion H as [v P Q| | | |]; subst; [exact (P eq_refl)|exact (Q _ eq_refl)].
  - destruct v; try (left; exists TypeError; split; [apply RAad; intros; discriminate|reflexivity]);
      right; (split; [reflexivity|]); intros e H; inversion H as [| |v Q| |]; subst; exact (Q _ eq_refl).
  - destruct v; try (left; exists CoseInvalidKey; split; [apply RKey; [discriminate|intros; discriminate]|reflexivity]);
      right; (split; [reflexivity|]); intros e H; inversion H as [| | |v P Q|]; subst; [exact (P eq_refl)|exact (Q _ _ _ eq_refl)].
  - destruct v; try (left; exists AttributeError; split; [apply RLocal; intros; discriminate|reflexivity]);
      right; (split; [reflexivity|]); intros e H; inversion H as [| | | |v P Q]; subst; [exact (P _ eq_refl)|exact (Q _ _ _ eq_refl)].
  - right. split; [reflexivity|]. intros e H. inversion H.
  - destruct v; try (left; exists TypeError; split; [apply RSignature; intros; discriminate|reflexivity]);
      right; (split; [reflexivity|]); intros e H; inversion H as [|v Q| | |]; subst; exact (Q _ eq_refl).
Qed.
Print Assumptions C118_refused.

(** ** A case *)
Definition ex_start : core := Core [] None [] [] false None [] None.
Definition ex_ops : list msg_op :=
  [OPayload (VBytes (bs "one")); OKey (VInt 1); OLocal (VDict [(VStr (bs "a"), VInt 1)]); OPayload (VStr (bs "text")); OAad (VBytes (bs "ctx"));
   OHeader (HSetPhdr (VDict [(Algorithm, VInt 1)])); OLocal (VDict [(VStr (bs "b"), VInt 2)]); OTstr (VBool true)].
Example C118_example :
  payload (msg_run ex_start ex_ops) = Some (bs "one") /\ aad (msg_run ex_start ex_ops) = bs "ctx" /\ ckey (msg_run ex_start ex_ops) = None /\
  dget (local (msg_run ex_start ex_ops)) (VStr (bs "a")) = Some (VInt 1) /\ dget (local (msg_run ex_start ex_ops)) (VStr (bs "b")) = Some (VInt 2) /\
  tstr (msg_run ex_start ex_ops) = true /\ phdr (msg_run ex_start ex_ops) <> [] /\
  (forall d, In (OLocal (VDict d)) ex_ops -> dnodup d = true) /\ snd (msg_step ex_start (OKey (VInt 1))) = Err CoseInvalidKey.
Proof.
  repeat split; try reflexivity; [discriminate|]. intros d H. cbn [ex_ops In] in H. decompose [or] H; try discriminate; try contradiction; match goal with E : OLocal _ = _ |- _ => injection E as <- end; reflexivity.
Qed.
