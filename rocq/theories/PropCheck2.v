(** C92 for messages with recipients: which exceptions [EncMessage.decrypt(recipient)] can raise
    on a received message.

    Vocabulary: SpecCheck.v, SpecCheck2.v. [equip_rcpt r k lo]: the received recipient with the
    receiver's key and local attributes. [equip_msg m a i r']: the received message with external
    data [a] and that recipient at its place. *)
From Coq Require Import NArith ZArith Bool String.
From Coq Require Import Init.Byte List.
From Verif Require Import Bytes Value ValueProofs Cbor Registry Crypto SpecCrypto Toy Keys Algorithms Headers Messages Recipients.
From Verif Require Import SpecKeys SpecHdr SpecMsg SpecAlg SpecAccept SpecRcptTrip SpecCheck SpecCheck2 CheckProofs CheckProofs2 PropKeys PropCheck.
Import ListNotations.

Theorem C92_decrypt_recipient_partial : forall X e allow b m i r k lo a x, law_hkdf_len X -> typed k ->
  decode X e allow (VBytes b) = Ok (MEnc m) -> nth_error (e_rcpts m) i = Some r -> r_class r <> RDirect ->
  snd (encm_decrypt X (equip_msg m a i (equip_rcpt r k lo)) (equip_rcpt r k lo)) = Err x ->
  is_cose_exception x = true \/ exists z, get_attr (r_core r) Algorithm = Ok (alg z) /\
    recipient_surprise X (with_aad (e_core m) a) (r_core (equip_rcpt r k lo)) z k x.
Proof. exact encm_decrypt_err. Qed.
Print Assumptions C92_decrypt_recipient_partial.

(** With direct recipients the key of the message is used. *)
Theorem C92_decrypt_direct_partial : forall X e allow b m r k a x, typed k -> decode X e allow (VBytes b) = Ok (MEnc m) ->
  In r (e_rcpts m) -> r_class r = RDirect -> snd (encm_decrypt X (EncMsg (equip (e_core m) k a) (e_rcpts m)) r) = Err x ->
  is_cose_exception x = true \/ enc_surprise X (equip (e_core m) k a) k x.
Proof. exact encm_direct_err. Qed.
Print Assumptions C92_decrypt_direct_partial.

(** Messages an attacker can send: A128GCM with one recipient. *)
Definition one_recipient (r : bytes) : bytes :=
  [xd8; x60; x84; x43; xa1; x01; x01; xa1; x05; x41; x00; x41; x00; x81] ++ r.
Definition nothing_wrapped : bytes := [x83; x40; xa1; x01; x22; xf6].                           (* A128KW, nil *)
Definition other_length : bytes := [x83; x40; xa1; x01; x23; x41; x00].                         (* A192KW *)
Definition no_sender_key : bytes := [x83; x44; xa1; x01; x38; x1c; xa0; x41; x00].              (* ECDH-ES+A128KW, no key *)
Definition symmetric_sender : bytes :=                                                          (* a symmetric key instead *)
  [x83; x44; xa1; x01; x38; x1c; xa1; x20; xa2; x01; x04; x20; x50] ++ repeat x07 16 ++ [x41; x00].

Definition decrypt_with (X : crypto) (b : bytes) (k : key) : option (result bytes) :=
  match decode X None true (VBytes b) with
  | Ok (MEnc m) =>
    match nth_error (e_rcpts m) 0 with
    | Some r => Some (snd (encm_decrypt X (equip_msg m [] 0 (equip_rcpt r k [])) (equip_rcpt r k [])))
    | None => None
    end
  | _ => None
  end.

(** False in full. *)
Theorem C92_recipient_exceptions_refuted : forall X, typed (got ex_sym) /\ typed (got ex_ec2) /\
  decrypt_with X (one_recipient nothing_wrapped) (got ex_sym) = Some (Err TypeError) /\
  decrypt_with X (one_recipient other_length) (got ex_sym) = Some (Err ValueError) /\
  decrypt_with X (one_recipient nothing_wrapped) (got ex_ec2) = Some (Err AttributeError) /\
  decrypt_with X (one_recipient no_sender_key) (got ex_ec2) = Some (Err AttributeError) /\
  decrypt_with X (one_recipient symmetric_sender) (got ex_ec2) = Some (Err AttributeError) /\
  forallb (fun x => negb (is_cose_exception x)) [AttributeError; ValueError; TypeError] = true.
Proof.
  intros X. split; [exact ex_sym_typed|]. split; [exact ex_ec2_typed|]. do 5 (split; [vm_compute; reflexivity|]). reflexivity.
Qed.
Print Assumptions C92_recipient_exceptions_refuted.

(** The hypotheses are met: direct key agreement without sender's key, and a content key of an
    impossible length; COSE exceptions. *)
Example C92_recipient_example :
  decrypt_with toy (one_recipient [x83; x44; xa1; x01; x38; x1a; xa0; x40]) (got ex_ec2) = Some (Err CoseException) /\
  decrypt_with toy (one_recipient [x83; x40; xa1; x01; x22; x41; x00]) (got ex_sym) <> None.
Proof. split; [vm_compute; reflexivity|vm_compute; discriminate]. Qed.
