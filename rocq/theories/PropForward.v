(** C79, continued: forwarding messages that have recipients.

    Vocabulary: SpecLife.v ([no_key_headers]), SpecMsg.v ([headers_ok]), SpecRcptTrip.v
    ([simple], [direct]). *)
From Coq Require Import NArith ZArith Bool String.
From Coq Require Import Init.Byte List.
From Verif Require Import Bytes Value Cbor SpecData Registry Crypto Toy Keys Algorithms Headers Messages Recipients
  SpecRegistry SpecKeys SpecCrypto SpecAlg SpecHdr SpecTrip SpecMsg SpecRcpt SpecRcptTrip SpecLife LifeProofs ForwardProofs
  PropHdr PropMsg PropRcpt PropRcptTrip.
Import ListNotations.

(** A COSE_Encrypt message whose recipients are all direct ones, or that has none, is
    received and encoded again to the same bytes. *)
Theorem C79_enc_direct_partial : forall X n m s b encrypt e, law_wrap_some X -> law_oaep_some X ->
  headers_ok X (e_core m) -> no_key_headers (uhdr (e_core m)) -> tstr (e_core m) = false ->
  Forall (fun r => headers_ok X (r_core r) /\ simple r /\ direct r /\ no_key_headers (uhdr (r_core r))) (e_rcpts m) ->
  e = None \/ e = Some 96%N -> encm_encode X n m true encrypt = (s, Ok b) ->
  exists m', decode X e true (VBytes b) = Ok (MEnc m') /\ forall k, encm_encode X k m' true false = ((k, m'), Ok b).
Proof.
  intros X n m s b encrypt e LW LO HO HN HT HF He H. destruct (e_rcpts m) as [|r rs] eqn:ER.
  - eapply enc_forward_none; eassumption.
  - eapply enc_forward; try eassumption; rewrite ER; [discriminate|exact HF].
Qed.
Print Assumptions C79_enc_direct_partial.

Example C79_enc_direct_example : exists s b m',
  let m := ex_enc [ex_direct 0; ex_direct 1] in
  headers_ok toy (e_core m) /\ no_key_headers (uhdr (e_core m)) /\ tstr (e_core m) = false /\
  Forall (fun r => headers_ok toy (r_core r) /\ simple r /\ direct r /\ no_key_headers (uhdr (r_core r))) (e_rcpts m) /\
  encm_encode toy 3 m true true = (s, Ok b) /\ decode toy None true (VBytes b) = Ok (MEnc m') /\ length (e_rcpts m') = 2 /\
  snd (encm_encode toy 9 m' true false) = Ok b.
Proof.
  do 3 eexists. cbv zeta. split; [apply ex_enc_ok|]. split; [|split; [|split; [|split; [vm_compute; reflexivity|split; [vm_compute; reflexivity|split; vm_compute; reflexivity]]]]].
  - intros v. cbn [ex_enc e_core ex_core uhdr In]. split; intros HH; repeat (destruct HH as [E|HH]; [discriminate E|]); exact HH.
  - reflexivity.
  - repeat (apply Forall_cons; [split; [eapply ex_rcpt_ok; in_list|]; split; [split; [reflexivity|eexists; split; [|reflexivity]; in_list]|];
      split; [reflexivity|]; intros v; split; intros [E|[]]; discriminate E|]); apply Forall_nil.
Qed.

(** A received COSE_Encrypt message with any other recipient is never encoded as it is. *)
Theorem C79_enc_recipient_refuted : forall X e allow b m r n tag o, decode X e allow (VBytes b) = Ok (MEnc m) ->
  In r (e_rcpts m) -> ~ direct r -> snd (encm_encode X n m tag false) <> Ok o.
Proof. exact enc_not_forwarded. Qed.
Print Assumptions C79_enc_recipient_refuted.

(** Given its key-encryption key, a received key wrap recipient is encoded, but wraps the
    wrapped content key: what is forwarded cannot be decrypted. *)
Theorem C79_rewrapped_refuted : exists n2 m2 b c r b' c' r',
  encm_encode toy 3 (ex_enc [ex_kw 0 (Some ex_sym) []]) true true = ((n2, m2), Ok b) /\
  decode toy None true (VBytes b) = Ok (MEnc (EncMsg c [r])) /\
  (let good := r_with r (equip (r_core r) ex_sym []) in
   snd (encm_decrypt toy (EncMsg (with_aad c (bs "aad")) [good]) good) = Ok (bs "hello") /\
   snd (encm_encode toy 4 (EncMsg c [good]) true false) = Ok b') /\
  decode toy None true (VBytes b') = Ok (MEnc (EncMsg c' [r'])) /\
  (let good := r_with r' (equip (r_core r') ex_sym []) in
   rcpt_decrypt toy good = match payload (r_core r) with Some w => Ok w | None => Err TypeError end /\
   forall pl, snd (encm_decrypt toy (EncMsg (with_aad c' (bs "aad")) [good]) good) <> Ok pl).
Proof.
  do 8 eexists. split; [vm_compute; reflexivity|]. split; [vm_compute; reflexivity|]. cbv zeta.
  split; [split; vm_compute; reflexivity|]. split; [vm_compute; reflexivity|]. split; [vm_compute; reflexivity|]. intros pl. vm_compute. discriminate.
Qed.
Print Assumptions C79_rewrapped_refuted.

(** A received COSE_Mac message is never given a tag again ... *)
Theorem C79_mac_tag_refuted : forall X e allow b m n tag o, decode X e allow (VBytes b) = Ok (MMac m) ->
  snd (macm_encode X n m tag true) <> Ok o.
Proof. exact mac_not_computed. Qed.
Print Assumptions C79_mac_tag_refuted.

(** ... and encoded without one, the recipients stand where the tag was: what is decoded has
    no recipients and an array for its tag. *)
Theorem C79_mac_refuted : forall X n m rs s b e, law_wrap_some X -> law_oaep_some X -> headers_ok X (mm_core m) ->
  mm_rcpts m = Some rs -> rs <> [] -> Forall (fun r => headers_ok X (r_core r) /\ simple r) rs ->
  macm_encode X n m true false = (s, Ok b) -> e = None \/ e = Some 97%N ->
  exists m' l, decode X e true (VBytes b) = Ok (MMac m') /\ mm_tag m' = VList l /\ mm_rcpts m' = None.
Proof.
  intros X n m rs s b e LW LO HO ER HN HF H He.
  destruct (mac_dropped X n m rs s b e LW LO HO ER HN HF H He) as (m' & l & H1 & H2 & H3 & _). eauto.
Qed.
Print Assumptions C79_mac_refuted.

(** A COSE_Mac message that was received, and one with a key wrap recipient. *)
Example C79_recipients_example :
  (exists s b m rs b', macm_encode toy 3 (ex_mac [ex_direct 0]) true true = (s, Ok b) /\ decode toy None true (VBytes b) = Ok (MMac m) /\
    mm_rcpts m = Some rs /\ Forall simple rs /\ length rs = 1 /\ snd (macm_encode toy 3 m true false) = Ok b' /\ b' <> b) /\
  (exists s b m r, encm_encode toy 3 (ex_enc [ex_kw 0 (Some ex_sym) []]) true true = (s, Ok b) /\
    decode toy None true (VBytes b) = Ok (MEnc m) /\ In r (e_rcpts m) /\ ~ direct r).
Proof.
  split.
  - do 5 eexists. split; [vm_compute; reflexivity|]. split; [vm_compute; reflexivity|]. split; [reflexivity|].
    split; [apply Forall_cons; [split; [reflexivity|eexists; split; [|reflexivity]; in_list]|apply Forall_nil]|].
    split; [reflexivity|]. split; [vm_compute; reflexivity|]. discriminate.
  - do 4 eexists. split; [vm_compute; reflexivity|]. split; [vm_compute; reflexivity|]. split; [left; reflexivity|]. discriminate.
Qed.
