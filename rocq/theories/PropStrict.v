(** C111: everything is encoded by the rules of RFC 8152, section 14.

    Vocabulary: SpecStrict.v ([strict], [no_repeats], [section14]), SpecForm.v ([encoding]),
    SpecMsg.v ([headers_ok], [sendable]), SpecRcptTrip.v ([simple]), SpecTrip.v ([portable]),
    SpecStruct.v ([authenticates]). *)
From Coq Require Import NArith ZArith Bool String.
From Coq Require Import Init.Byte List.
From Verif Require Import Bytes Value Cbor SpecData Registry Crypto Toy Keys Algorithms Headers Messages Recipients
  SpecRegistry SpecKeys SpecCrypto SpecAlg SpecHdr SpecTrip SpecForm SpecMsg SpecRcpt SpecRcptTrip SpecStruct SpecStrict
  PartProofs FormProofs StrictProofs PropHdr PropMsg PropRcpt PropRcptTrip PropParts.
Import ListNotations.

(** ** Definite lengths and shortest heads, always *)

(** Whatever the headers, payload, key, recipients and flags: if a message is encoded, its
    bytes have definite lengths and shortest heads throughout. *)
Theorem C111_messages_definite : forall X b,
  (exists seed m tag sign d, sign1_encode X seed m tag sign d = Ok b) \/ (exists seed m tag d, sign_encode X seed m tag d = Ok b) \/
  (exists c tag enc, enc0_encode X c tag enc = Ok b) \/ (exists m tag mac, snd (mac0_encode X m tag mac) = Ok b) \/
  (exists n m tag enc, snd (encm_encode X n m tag enc) = Ok b) \/ (exists n m tag mac, snd (macm_encode X n m tag mac) = Ok b) ->
  exists c, strict c b.
Proof.
  intros X b [(seed & m & tag & sign & d & H)|[(seed & m & tag & d & H)|[(c & tag & enc & H)|[(m & tag & mac & H)|[(n & m & tag & enc & H)|(n & m & tag & mac & H)]]]]].
  - exact (sign1_strict _ _ _ _ _ _ _ H).
  - exact (sign_strict _ _ _ _ _ _ H).
  - exact (enc0_strict _ _ _ _ _ H).
  - exact (mac0_strict _ _ _ _ _ H).
  - exact (enc_strict_message _ _ _ _ _ _ H).
  - exact (mac_strict_message _ _ _ _ _ _ H).
Qed.
Print Assumptions C111_messages_definite.

(** So are what is signed, authenticated or used as additional data, the context of a key
    derivation, and keys. *)
Theorem C111_structures_definite : forall k t, authenticates k t -> exists c, strict c t.
Proof. exact structure_strict. Qed.
Print Assumptions C111_structures_definite.
Theorem C111_context_definite : forall k t, kdf_encode k = Ok t -> exists c, strict c t.
Proof. exact kdf_strict. Qed.
Print Assumptions C111_context_definite.
Theorem C111_keys_definite : forall k b, key_encode k = Ok b -> exists c, strict c b.
Proof. intros k b H. unfold key_encode in H. destruct (dumps_strict _ _ _ _ H) as (c & _ & HS). exists c. exact HS. Qed.
Print Assumptions C111_keys_definite.

(** The rules leave no choice: an item has one such form, which is an encoding in the sense of
    RFC 7049; and from the bytes the decoder reads the item back. *)
Theorem C111_one_form : forall c b, strict c b -> encoding c b /\ (forall b', strict c b' -> b' = b).
Proof. intros c b H. split; [exact (proj1 strict_encoding _ _ H)|exact (proj1 strict_unique _ _ H)]. Qed.
Print Assumptions C111_one_form.
Theorem C111_one_item : forall c c' b, strict c b -> strict c' b -> (blen b < max_len)%N -> c' = c.
Proof.
  intros c c' b H H' HB. apply (proj1 strict_encoding) in H. apply (proj1 strict_encoding) in H'.
  pose proof (well_formed_read _ _ [] H HB) as E. pose proof (well_formed_read _ _ [] H' HB) as E'. congruence.
Qed.
Print Assumptions C111_one_item.

(** ** No label twice *)

(** For messages whose headers are as the constructors and the decoder make them (C10), all
    three rules hold. *)
Theorem C111_sign1_partial : forall X seed m tag d b, headers_ok X (s1_core m) -> sign1_encode X seed m tag true d = Ok b -> section14 b.
Proof. exact sign1_section14. Qed.
Print Assumptions C111_sign1_partial.
Theorem C111_sign_partial : forall X seed m tag d b, headers_ok X (sm_core m) -> Forall (headers_ok X) (sm_signers m) ->
  sign_encode X seed m tag d = Ok b -> section14 b.
Proof. exact sign_section14. Qed.
Print Assumptions C111_sign_partial.
Theorem C111_enc0_partial : forall X c tag enc b, headers_ok X c -> enc0_encode X c tag enc = Ok b -> section14 b.
Proof. exact enc0_section14. Qed.
Print Assumptions C111_enc0_partial.
Theorem C111_mac0_partial : forall X m tag mac b, headers_ok X (m0_core m) -> snd (mac0_encode X m tag mac) = Ok b -> section14 b.
Proof. exact mac0_section14. Qed.
Print Assumptions C111_mac0_partial.
Theorem C111_enc_partial : forall X n m enc s b, headers_ok X (e_core m) -> Forall (fun r => headers_ok X (r_core r) /\ simple r) (e_rcpts m) ->
  e_rcpts m <> [] -> encm_encode X n m true enc = (s, Ok b) -> section14 b.
Proof. exact enc_section14. Qed.
Print Assumptions C111_enc_partial.
Theorem C111_mac_partial : forall X n m rs s b, headers_ok X (mm_core m) -> mm_rcpts m = Some rs -> Forall (fun r => headers_ok X (r_core r) /\ simple r) rs ->
  rs <> [] -> macm_encode X n m true true = (s, Ok b) -> section14 b.
Proof. exact mac_section14. Qed.
Print Assumptions C111_mac_partial.

(** The protected headers inside their byte string, and keys. *)
Theorem C111_protected_partial : forall X c p, phdr_raw c = None -> sendable X (phdr c) -> phdr_encoded c = Ok p -> p = [] \/ section14 p.
Proof. exact protected_section14. Qed.
Print Assumptions C111_protected_partial.
Theorem C111_keys_partial : forall X k b, portable X k -> key_encode k = Ok b -> section14 b.
Proof. exact key_section14. Qed.
Print Assumptions C111_keys_partial.

(** ** Labels written twice *)

(** Adding a header the message has already, under its number, with [phdr_update] or
    [uhdr_update], puts the label into the map twice: for every header and all values. *)
Theorem C111_protected_update_refuted : forall c h v w p, c_fam h = FHdr ->
  dget (phdr c) (VClass h) = Some v -> dget (phdr c) (VInt (c_id h)) = None ->
  phdr_encoded (fst (hdr_step c (HUpdatePhdr (VDict [(VInt (c_id h), w)])))) = Ok p -> (blen p < max_len)%N -> ~ section14 p.
Proof. exact protected_twice. Qed.
Print Assumptions C111_protected_update_refuted.
Theorem C111_unprotected_update_refuted : forall X c h v w tag enc b, c_fam h = FHdr ->
  dget (uhdr c) (VClass h) = Some v -> dget (uhdr c) (VInt (c_id h)) = None ->
  enc0_encode X (fst (hdr_step c (HUpdateUhdr (VDict [(VInt (c_id h), w)])))) tag enc = Ok b -> (blen b < max_len)%N -> ~ section14 b.
Proof. exact unprotected_twice. Qed.
Print Assumptions C111_unprotected_update_refuted.

(** ** The hypotheses are met *)

Example C111_example : exists c b, core_init toy (ex_args (alg (-7)) true ex_ec2) = Ok c /\ headers_ok toy c /\
  sign1_encode toy 5 (Sign1 c (VBytes [])) true true VNone = Ok b /\ section14 b.
Proof.
  destruct C10_example as (c & b & HC & _ & _ & _ & HH & _ & HB). exists c, b. split; [exact HC|]. split; [exact HH|]. split; [exact HB|].
  exact (C111_sign1_partial toy 5 (Sign1 c (VBytes [])) true VNone b HH HB).
Qed.
Example C111_recipients_example : exists s b, encm_encode toy 3 (ex_enc [ex_names; ex_names_p]) true true = (s, Ok b) /\ section14 b.
Proof.
  destruct C94_enc_example as (s & b & p & d & body & p2 & w2 & p3 & d3 & w3 & HH & HR & HE & _). exists s, b. split; [exact HE|].
  apply (C111_enc_partial toy 3 _ true s b HH HR); [discriminate|exact HE].
Qed.

(** A message built with a key identifier, to which [phdr_update({4: b'\x02'})] adds another
    one: the protected map has the label 4 twice, and so do the bytes of an Encrypt0 message
    with the identifiers in the unprotected map. *)
Definition ex_kid : core := Core [(KID, VBytes [x01])] None [(KID, VBytes [x01])] [] false (Some []) [] None.
Example C111_twice_example : exists p b,
  phdr_encoded (fst (hdr_step ex_kid (HUpdatePhdr (VDict [(VInt 4, VBytes [x02])])))) = Ok p /\
  p = [xa2; x04; x41; x01; x04; x41; x02] /\ ~ section14 p /\
  enc0_encode toy (fst (hdr_step ex_kid (HUpdateUhdr (VDict [(VInt 4, VBytes [x02])])))) true false = Ok b /\ ~ section14 b.
Proof.
  do 2 eexists. split; [vm_compute; reflexivity|]. split; [reflexivity|].
  split; [apply (C111_protected_update_refuted ex_kid (Cls FHdr 4) (VBytes [x01]) (VBytes [x02])); reflexivity|].
  split; [vm_compute; reflexivity|]. apply (C111_unprotected_update_refuted toy ex_kid (Cls FHdr 4) (VBytes [x01]) (VBytes [x02]) true false); reflexivity.
Qed.

(** One where the longer form is possible but not written. *)
Example C111_shortest_example : strict (CUint 24) [x18; x18] /\ ~ strict (CUint 24) [x19; x00; x18] /\ encoding (CUint 24) [x19; x00; x18].
Proof.
  assert (HS : strict (CUint 24) [x18; x18]) by exact (enc_strict (CUint 24) eq_refl).
  split; [exact HS|]. split.
  - intros H. discriminate (proj2 (C111_one_form _ _ HS) _ H).
  - apply e_uint. exact (in_two 0 24 eq_refl).
Qed.
