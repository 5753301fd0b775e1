(** C99, assignment to messages that have headers already. *)
From Coq Require Import NArith ZArith Bool String.
From Coq Require Import Init.Byte List.
From Verif Require Import Bytes Value ValueProofs Cbor Registry Crypto Toy Keys Headers SpecRegistry SpecHdr SpecAssign RegistryProofs PropAssign.
Import ListNotations.

(** Whatever headers a message was made with, given as a map or as received bytes: assigning
    headers written the way messages keep them gives the message that the constructor makes with
    the new headers instead. *)
Theorem C99_reassign_partial : forall X p u pl ad k enc t al c d, settled_headers al d ->
  core_init X (Args p u pl ad k enc t al) = Ok c ->
  (exists c', core_init X (Args (VDict d) u pl ad k VNone t al) = Ok c' /\ hdr_step c (HSetPhdr (VDict d)) = (c', Ok tt)) /\
  (exists c', core_init X (Args p (VDict d) pl ad k enc t al) = Ok c' /\ hdr_step c (HSetUhdr (VDict d)) = (c', Ok tt)).
Proof.
  intros X p u pl ad k enc t al c d HS HC. destruct (settled_items X _ _ HS) as [HP HU].
  unfold core_init in *. cbn [a_phdr a_uhdr a_payload a_aad a_key a_phdr_encoded a_tstr a_allow] in *.
  apply bind_ok in HC as (ph & HH & HC). rewrite HH. cbn [bind]. destruct ph; try discriminate HC. split.
  - destruct u as [| | | | | | | | | | |ud| | | |]; try discriminate HC; cbv zeta; rewrite HP; cbn [bind];
    apply bind_ok in HC as (pp & HPP & HC); apply bind_ok in HC as (uu & HQ & HC); rewrite HQ; cbn [bind]; apply bind_ok in HC as (raw & HR & HC);
    apply bind_ok in HC as (p' & -> & HC); apply bind_ok in HC as (a' & -> & HC);
    apply bind_ok in HC as (k' & -> & HC); injection HC as <-; cbn [bind]; (eexists; split; [reflexivity|]); reflexivity.
  - destruct u as [| | | | | | | | | | |ud| | | |]; try discriminate HC; cbv zeta;
    apply bind_ok in HC as (pp & HPP & HC); rewrite HPP; cbn [bind]; rewrite HP; cbn [bind];
    apply bind_ok in HC as (uu & HQ & HC); apply bind_ok in HC as (raw & HR & HC); rewrite HR; cbn [bind];
    apply bind_ok in HC as (p' & -> & HC); apply bind_ok in HC as (a' & -> & HC);
    apply bind_ok in HC as (k' & -> & HC); injection HC as <-; cbn [bind]; (eexists; split; [reflexivity|]); reflexivity.
Qed.
Print Assumptions C99_reassign_partial.

(** A message received with protected bytes [a10126] is given another algorithm. *)
Example C99_reassign_example : exists c c',
  settled_headers true [(Algorithm, VClass (Cls FAlg (-35)))] /\
  core_init toy (Args VNone VNone VNone (VBytes []) VNone (VBytes [xa1; x01; x26]) false true) = Ok c /\
  phdr_raw c = Some [xa1; x01; x26] /\
  hdr_step c (HSetPhdr (VDict [(Algorithm, VClass (Cls FAlg (-35)))])) = (c', Ok tt) /\
  phdr_raw c' = None /\ phdr_encoded c' = Ok [xa1; x01; x38; x22].
Proof.
  eexists. eexists. split.
  { split; [reflexivity|]. intros k v [E|[]]. injection E as <- <-. left. exists (Cls FHdr 1), (bs "ALG").
    split; [vm_compute; auto 40|]. split; [reflexivity|]. repeat split; try discriminate.
    - intros _. exists (Cls FAlg (-35)), (bs "ES384"). split; [reflexivity|]. vm_compute. auto 100.
    - cbn. intros H. repeat (destruct H as [H|H]; [discriminate|]). destruct H. }
  split; [vm_compute; reflexivity|]. split; [reflexivity|]. split; [reflexivity|]. split; [reflexivity|]. vm_compute. reflexivity.
Qed.
