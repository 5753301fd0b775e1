(** Textual representations of keys and messages (C74, C75). *)
From Coq Require Import NArith ZArith Bool String.
From Coq Require Import Init.Byte List.
From Verif Require Import Bytes Value Cbor Registry Crypto Toy Keys Algorithms Headers Messages Recipients Repr
  SpecData SpecHdr SpecRepr ValueProofs DataProofs ReprProofs HdrProofs.
Import ListNotations.

(** ** C74: secrets in the text of a key *)

(** Keys that differ only after the fifth byte of the secret have the same text. *)
Theorem C74_secret_hidden_partial : forall c s s', c <> KRSA ->
  same_but_secrets c s s' -> key_repr c s = key_repr c s'.
Proof. exact secret_hidden. Qed.
Print Assumptions C74_secret_hidden_partial.

(** Two keys that meet the hypothesis, with a text label next to the secret. *)
Example C74_example :
  let s k := [(VClass KpKty, VClass (Cls FKty 4)); (VClass SymKpK, VBytes k); (VStr (bs "owner"), VStr (bs "me"))] in
  same_but_secrets KSym (s (bs "12345secret-secret")) (s (bs "12345public-public")) /\
  exists d, key_repr KSym (s (bs "12345secret-secret")) = Ok d /\
    dget d (VStr (bs "SymKpK")) = Some (VTuple [VBytes (bs "12345"); VInt 18]) /\
    key_repr KSym (s (bs "54321secret-secret")) <> Ok d.
Proof.
  cbv zeta. split.
  - constructor; [split; [reflexivity|left; reflexivity]|].
    constructor; [split; [reflexivity|right]|constructor; [split; [reflexivity|left; reflexivity]|constructor]].
    exists SymKpK. do 2 eexists. split; [left; reflexivity|]. do 3 (split; [reflexivity|]). split; reflexivity.
  - eexists. split; [vm_compute; reflexivity|]. split; [vm_compute; reflexivity|]. vm_compute. discriminate.
Qed.

(** The text of an RSA key contains the whole private exponent. *)
Theorem C74_rsa_refuted : forall s d text, distinct_keys s = true ->
  dget s (VClass RSAKpD) = Some (VBytes d) -> dget s (VStr (bs "RSAKpD")) = None ->
  key_repr KRSA s = Ok text -> dget text (VStr (bs "RSAKpD")) = Some (VBytes d).
Proof. intros s d text HD. rewrite distinct_keys_dnodup in HD. apply rsa_printed. assumption. Qed.
Print Assumptions C74_rsa_refuted.

Example C74_rsa_example :
  let s := [(VClass KpKty, VClass (Cls FKty 3)); (VClass RSAKpN, VBytes (bs "nnnnnnnn"));
            (VClass RSAKpD, VBytes (bs "secret exponent"))] in
  exists text, key_repr KRSA s = Ok text /\ In (VStr (bs "RSAKpD"), VBytes (bs "secret exponent")) text.
Proof. cbv zeta. eexists. split; [vm_compute; reflexivity|]. vm_compute. tauto. Qed.

(** ** C75: the text of a received message *)

Theorem C75_repr_partial : forall X e allow v m, decode X e allow v = Ok m ->
  (forall c, In c (message_cores m) -> payload c <> None /\ plain_key_headers c) ->
  (forall s, message_seal m = Some s -> exists b, s = VBytes b) ->
  message_repr m = Ok tt.
Proof. exact decoded_repr. Qed.
Print Assumptions C75_repr_partial.

(** A message received without its payload cannot be printed. *)
Theorem C75_no_payload_refuted : forall X e allow v m, decode X e allow v = Ok m ->
  payload (message_core m) = None -> message_repr m <> Ok tt.
Proof.
  intros X e allow v m _ HP HR.
  assert (HB : body_repr (message_core m) = Ok tt).
  { destruct m as [m|m|c|m|m|m]; cbn [message_repr message_core] in *; [| |exact HR| | |];
      apply bind_ok in HR as ([] & HB & _); exact HB. }
  unfold body_repr in HB. rewrite HP in HB. apply bind_ok in HB as (u & _ & HB). discriminate.
Qed.
Print Assumptions C75_no_payload_refuted.

(** COSE_Sign1 with an empty protected map, no headers, payload [null] and one byte of signature. *)
Example C75_no_payload_example :
  exists m, decode toy None true (VBytes [xd2; x84; x40; xa0; xf6; x41; x00]) = Ok m /\
    payload (message_core m) = None /\ message_repr m = Err TypeError.
Proof. eexists. split; [vm_compute; reflexivity|]. vm_compute. split; reflexivity. Qed.

(** An ephemeral key with the additional text parameter "EC2KpD" of type integer. *)
Definition ex_hostile : bytes :=
  [xd0; x83; x40; xa1; x20; xa5; x01; x02; x20; x01; x21; x58; x20] ++ repeat x01 32 ++ [x22; x58; x20] ++ repeat x02 32 ++
  [x66] ++ bs "EC2KpD" ++ [x05; x41; x00].

Theorem C75_hostile_key_refuted : exists m, decode toy None true (VBytes ex_hostile) = Ok m /\
  payload (message_core m) = Some [x00] /\ message_repr m = Err TypeError.
Proof. eexists. split; [vm_compute; reflexivity|]. vm_compute. split; reflexivity. Qed.
Print Assumptions C75_hostile_key_refuted.

(** An ephemeral key with the private number written under the lower-case label "d" and of type
    integer: the key is accepted, and the message cannot be printed. *)
Theorem C75_lower_case_refuted : exists m,
  decode toy None true (VBytes ([xd0; x83; x40; xa1; x20; xa5; x01; x02; x20; x01; x21; x58; x20] ++ repeat x01 32 ++ [x22; x58; x20] ++
    repeat x02 32 ++ [x61] ++ bs "d" ++ [x05; x41; x00])) = Ok m /\
  payload (message_core m) = Some [x00] /\ message_repr m = Err TypeError.
Proof. eexists. split; [vm_compute; reflexivity|]. vm_compute. split; reflexivity. Qed.
Print Assumptions C75_lower_case_refuted.

(** COSE_Encrypt with an IV, an unknown header and one recipient. *)
Example C75_example :
  exists m, decode toy None true (VBytes ([xd8; x60; x84; x43; xa1; x01; x01; xa2; x05; x4c] ++ repeat x07 12 ++
      [x61; x7a; x82; x01; x02; x43; x01; x02; x03; x81; x83; x40; xa1; x01; x22; x42; x05; x06])) = Ok m /\
    length (message_cores m) = 2%nat /\
    (forall c, In c (message_cores m) -> payload c <> None /\ plain_key_headers c) /\ message_repr m = Ok tt.
Proof.
  eexists. split; [vm_compute; reflexivity|]. split; [vm_compute; reflexivity|]. split; [|vm_compute; reflexivity].
  intros c HI. cbn in HI. destruct HI as [<-|[<-|[]]]; (split; [discriminate|]); intros h kc s e HK; cbn in HK; intuition discriminate.
Qed.

(** COSE_Encrypt0 whose unprotected headers hold an ephemeral EC2 key with a list of operations
    and an unknown text label. *)
Example C75_key_example :
  exists m h kc s e, decode toy None true (VBytes ([xd0; x83; x40; xa1; x20; xa6; x01; x02; x04; x81; x07; x20; x01; x21; x58; x20] ++
      repeat x01 32 ++ [x22; x58; x20] ++ repeat x02 32 ++ [x61; x7a; x05; x41; x00])) = Ok m /\
    In (h, VKey kc s e) (uhdr (message_core m)) /\ length s = 6%nat /\
    (forall c, In c (message_cores m) -> payload c <> None /\ plain_key_headers c) /\ message_repr m = Ok tt.
Proof.
  do 5 eexists. split; [vm_compute; reflexivity|]. split; [vm_compute; left; reflexivity|]. split; [vm_compute; reflexivity|].
  split; [|vm_compute; reflexivity].
  intros c HI. cbn in HI. destruct HI as [<-|[]]; (split; [discriminate|]). intros h kc s e [HK|HK]; [destruct HK|].
  cbn in HK. destruct HK as [HK|[]]. injection HK as _ _ <- _. split.
  - intros u v HU HN. cbn in HU.
    repeat (destruct HU as [HU|HU]; [try discriminate HU; injection HU as <- _; cbn in HN; intuition discriminate|]). destruct HU.
  - intros p v HP HV. cbn in HP, HV.
    repeat (destruct HP as [<-|HP]; [repeat (destruct HV as [HV|HV]; [try discriminate HV; injection HV as <-; eexists; reflexivity|]); destruct HV|]).
    destruct HP.
Qed.
