(** Vocabulary of the properties about the life of message objects (C77-C79). *)
From Coq Require Import NArith ZArith Bool String.
From Coq Require Import Init.Byte List.
From Verif Require Import Bytes Value Registry Crypto Keys Algorithms Headers Messages Recipients.
Import ListNotations.

(** ** Decrypting *)

(** [m'] is [m] after any number of calls of [decrypt], for whatever recipients and with
    whatever outcomes. *)
Inductive after_decrypts (X : crypto) (m : encmsg) : encmsg -> Prop :=
| AD_none : after_decrypts X m m
| AD_more m1 m2 r x : after_decrypts X m m1 -> encm_decrypt X m1 r = (m2, x) -> after_decrypts X m m2.

(** ** Encoding *)

(** The public part of a key, as it is put into a header. *)
Definition public_params (k : key) : dict := filter (fun e => negb (keyeq (VClass EC2KpD) (fst e))) (k_store k).

(** What encoding may do to the fields of a recipient: an empty payload is replaced by the
    content key, a missing key by a new one, whose public part may be announced. *)
Definition fields_kept (c c' : core) : Prop :=
  phdr c' = phdr c /\ phdr_raw c' = phdr_raw c /\ local c' = local c /\ tstr c' = tstr c /\ aad c' = aad c /\
  (payload c' = payload c \/ payload c = Some []) /\
  ((ckey c' = ckey c /\ uhdr c' = uhdr c) \/
   (ckey c = None /\ exists k, ckey c' = Some k /\
      (uhdr c' = uhdr c \/ uhdr c' = dset (uhdr c) EphemeralKey (VDict (public_params k))))).

(** The same tree of recipient objects. *)
Inductive rcpt_kept : rcpt -> rcpt -> Prop :=
| RK id rc c c' ctx subs subs' : fields_kept c c' -> Forall2 rcpt_kept subs subs' ->
    rcpt_kept (Rcpt id rc c ctx subs) (Rcpt id rc c' ctx subs').

(** The message [m'] differs from [m] at most in its key. *)
Definition core_kept (c c' : core) : Prop :=
  phdr c' = phdr c /\ phdr_raw c' = phdr_raw c /\ uhdr c' = uhdr c /\ local c' = local c /\ tstr c' = tstr c /\
  payload c' = payload c /\ aad c' = aad c.

(** [m'] is [m] after any number of calls of [encode] and [compute_tag], whatever their
    arguments and outcomes. *)
Inductive after_mac_encodes (X : crypto) (m : macmsg) : macmsg -> Prop :=
| ME_none : after_mac_encodes X m m
| ME_encode m1 n t mac s x : after_mac_encodes X m m1 -> macm_encode X n m1 t mac = (s, x) -> after_mac_encodes X m (snd s)
| ME_tag m1 n s x : after_mac_encodes X m m1 -> macm_compute_tag X n m1 = (s, x) -> after_mac_encodes X m (snd s).

(** ** Forwarding *)

(** No key among the headers (keys are rebuilt, parameter by parameter, when received). *)
Definition no_key_headers (h : dict) : Prop :=
  forall v, ~ In (EphemeralKey, v) h /\ ~ In (StaticKey, v) h.
