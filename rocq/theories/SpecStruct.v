(** Specification vocabulary for the authenticated structures: what counts as the
    protected field, the signed payload, and the bytes authenticated per message kind. *)
From Coq Require Import NArith ZArith Bool String.
From Coq Require Import Init.Byte List.
From Verif Require Import Bytes Value Cbor SpecData Registry Crypto Keys Headers Messages Recipients SpecRfc.
Import ListNotations.

(** The protected field of a structure (RFC 8152 section 4.4): the serialised map, or
    the empty string when the map is empty. *)
Definition protected_field (c : core) (p : bytes) : Prop :=
  (phdr c = [] -> p = []) /\ (phdr c <> [] -> phdr_encoded c = Ok p).

(** The bytes that are signed, for an attached or a detached payload. *)
Definition signed_payload (attached detached : option bytes) (p : bytes) : Prop :=
  (attached = Some p /\ detached = None) \/ (attached = None /\ detached = Some p).

(** The signer field of a COSE_Sign structure as pycose builds it: left out when the
    signer has no protected headers. *)
Definition signer_protected (s : core) (o : option bytes) : Prop :=
  match o with
  | None => phdr s = []
  | Some p => phdr s <> [] /\ phdr_encoded s = Ok p
  end.

(** The bytes a message of each kind authenticates. *)
Inductive kind := KindSign1 | KindSign | KindEnc0 | KindEnc | KindMac0 | KindMac.

Inductive authenticates : kind -> bytes -> Prop :=
| Auth_sign1 c d t : sign1_structure c d = Ok t -> authenticates KindSign1 t
| Auth_sign m s d t : signer_structure m s d = Ok t -> authenticates KindSign t
| Auth_enc0 c t : enc_structure "Encrypt0" c = Ok t -> authenticates KindEnc0 t
| Auth_enc c t : enc_structure "Encrypt" c = Ok t -> authenticates KindEnc t
| Auth_mac0 c t : mac_structure "MAC0" c = Ok t -> authenticates KindMac0 t
| Auth_mac c t : mac_structure "MAC" c = Ok t -> authenticates KindMac t.

(** All fields of the context are plain data. *)
Definition kdf_plain (k : kdfctx) : bool :=
  forallb (data_value false) (kc_u k) && forallb (data_value false) (kc_v k) &&
  data_value false (kc_pub_other k) && data_value false (kc_priv k).

(** A non-empty byte string is a present field, an empty one is absent. *)
Definition present (b : bytes) : option bytes := match b with [] => None | _ => Some b end.

(** Attached and detached payload both given, or neither. *)
Definition bad_payloads (attached : option bytes) (detached : pyval) : Prop :=
  (attached <> None /\ detached <> VNone) \/ (attached = None /\ detached = VNone).

(** An item with or without its COSE tag. *)
Definition maybe_tag (tag : bool) (t : N) (item : bytes) : bytes :=
  if tag then rfc_tag t item else item.

(** The body field is the serialised (or received) protected header even if the map is
    empty; it agrees with the RFC unless a received header was an explicit empty map. *)
Definition plain_protected (c : core) : Prop :=
  phdr c <> [] \/ phdr_raw c = None \/ phdr_raw c = Some [].

