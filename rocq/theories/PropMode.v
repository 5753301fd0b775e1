(** C132: the strict mode refuses, but never changes. *)
From Coq Require Import NArith ZArith Bool String.
From Coq Require Import Init.Byte List.
From Verif Require Import Bytes Value Cbor Registry Crypto Toy Keys Headers Messages Recipients SpecRegistry SpecMode ModeProofs.
Import ListNotations.
Local Open Scope string_scope.
Local Open Scope list_scope.

(** [decode(..., allow_unknown_attributes=False)] gives the same message or exception as
    [decode(..., allow_unknown_attributes=True)], or it raises CoseException. *)
Theorem C132_decode : forall X expected v, same_or_refused (decode X expected false v) (decode X expected true v).
Proof. exact decode_sr. Qed.
Print Assumptions C132_decode.

(** What the strict mode accepts the permissive mode accepts, with the same result. *)
Theorem C132_accepted : forall X expected v m, decode X expected false v = Ok m -> decode X expected true v = Ok m.
Proof. intros X e v m. apply sr_ok. apply decode_sr. Qed.
Print Assumptions C132_accepted.

(** Of the messages the permissive mode accepts, the strict mode accepts exactly those without
    unknown parameters in the headers of the message, of its recipients and of its signers. *)
Theorem C132_exactly : forall X expected v m, decode X expected true v = Ok m -> recipients_read m ->
  (decode X expected false v = Ok m <-> Forall no_unknown (parts m)) /\
  (decode X expected false v = Err CoseException <-> ~ Forall no_unknown (parts m)).
Proof.
  intros X e v m H HR. pose proof (decode_iff X e v m H HR) as HI. split; [exact HI|]. rewrite <- HI.
  destruct (decode_sr X e v) as [E|E]; rewrite E; [rewrite H|]; split; intros Q; congruence.
Qed.
Print Assumptions C132_exactly.

(** The same for building a message. *)
Theorem C132_constructor : forall X phdr uhdr payload aad key encoded tstr,
  let strict := core_init X (Args phdr uhdr payload aad key encoded tstr false) in
  let permissive := core_init X (Args phdr uhdr payload aad key encoded tstr true) in
  same_or_refused strict permissive /\ (forall c, permissive = Ok c -> (strict = Ok c <-> no_unknown c)).
Proof. intros X p u pl ad k pe t. cbv zeta. split; [apply core_init_sr|]. intros c. apply core_init_iff. Qed.
Print Assumptions C132_constructor.

(** The same for building a key: the names of the optional parameters decide. *)
Theorem C132_keys : forall X opt,
  (forall k, same_or_refused (sym_init k opt false) (sym_init k opt true) /\
     forall r, sym_init k opt true = Ok r -> (sym_init k opt false = Ok r <-> options_known FSym opt)) /\
  (forall crv x d, same_or_refused (okp_init crv x d opt false) (okp_init crv x d opt true) /\
     forall r, okp_init crv x d opt true = Ok r -> (okp_init crv x d opt false = Ok r <-> options_known FOKP opt)) /\
  (forall crv x y d, same_or_refused (ec2_init X crv x y d opt false) (ec2_init X crv x y d opt true) /\
     forall r, ec2_init X crv x y d opt true = Ok r -> (ec2_init X crv x y d opt false = Ok r <-> options_known FEC2 opt)) /\
  (forall a, same_or_refused (rsa_init a opt false) (rsa_init a opt true) /\
     forall r, rsa_init a opt true = Ok r -> (rsa_init a opt false = Ok r <-> options_known FRSA opt)).
Proof.
  intros X opt. split; [|split; [|split]].
  - intros k. split; [apply sym_sr|]. apply sym_iff.
  - intros crv x d. split; [apply okp_sr|]. apply okp_iff.
  - intros crv x y d. split; [apply ec2_sr|]. apply ec2_iff.
  - intros a. split; [apply rsa_sr|]. apply rsa_iff.
Qed.
Print Assumptions C132_keys.

(** A COSE_Mac message whose direct recipient has a kid: both modes give the same. *)
Example C132_same_example : exists m,
  let b := VBytes [xd8; x61; x85; x40; xa0; x41; x01; x41; x02; x81; x83; x40; xa2; x01; x25; x04; x41; x07; x40] in
  decode toy None true b = Ok m /\ decode toy None false b = Ok m /\ recipients_read m /\ length (parts m) = 2.
Proof. eexists. cbv zeta. split; [vm_compute; reflexivity|]. split; [vm_compute; reflexivity|]. split; [discriminate|reflexivity]. Qed.

(** The same message, with parameter 99 in the headers of the recipient. *)
Example C132_refused_example : exists m,
  let b := VBytes [xd8; x61; x85; x40; xa0; x41; x01; x41; x02; x81; x83; x40; xa2; x01; x25; x18; x63; x41; x07; x40] in
  decode toy None true b = Ok m /\ recipients_read m /\ decode toy None false b = Err CoseException.
Proof. eexists. cbv zeta. split; [vm_compute; reflexivity|]. split; [discriminate|vm_compute; reflexivity]. Qed.

(** An exception that has nothing to do with unknown parameters is the same in both modes. *)
Example C132_error_example :
  let b := VBytes [xd2; x84; x40; xa1; x04; x01; x41; x01; x41; x02] in
  decode toy None true b = Err ValueError /\ decode toy None false b = Err ValueError.
Proof. cbv zeta. split; vm_compute; reflexivity. Qed.

(** Why [recipients_read] is there: the recipients array holds an unknown parameter and then a kid
    of the wrong type. The permissive mode ignores the array, the strict mode refuses the message. *)
Example C132_unread_example : exists m,
  let b := VBytes [xd8; x61; x85; x40; xa0; x41; x01; x41; x02; x81; x83; x40; xa3; x01; x25; x18; x63; x41; x07; x04; x01; x40] in
  decode toy None true b = Ok m /\ ~ recipients_read m /\ Forall no_unknown (parts m) /\
  decode toy None false b = Err CoseException.
Proof.
  eexists. cbv zeta. split; [vm_compute; reflexivity|]. split; [intros H; elim H; reflexivity|].
  split; [|vm_compute; reflexivity]. constructor; [|constructor]. intros k v [[]|[]].
Qed.

(** A symmetric key with parameter 99. *)
Example C132_keys_example :
  let kv := VBytes (List.repeat x00 16) in let opt := VDict [(VInt 99, VInt 1)] in
  (exists k, sym_init kv opt true = Ok k) /\ sym_init kv opt false = Err CoseException /\
  (exists k, sym_init kv (VDict [(VInt 2, VBytes [x01])]) false = Ok k).
Proof. cbv zeta. split; [eexists; vm_compute; reflexivity|]. split; [vm_compute; reflexivity|]. eexists. vm_compute. reflexivity. Qed.
