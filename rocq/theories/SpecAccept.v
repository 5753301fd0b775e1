(** Vocabulary of C90: what was signed, MACed or encrypted, and when a primitive accepts. *)
From Coq Require Import NArith ZArith Bool String.
From Coq Require Import Init.Byte List.
From Verif Require Import Bytes Value Cbor Registry Crypto Keys Algorithms Headers Messages Recipients SpecStruct SpecAlg.
Import ListNotations.

(** ** Authenticated items *)

(** A message (or one signer of a COSE_Sign message) with the detached payload, if any. *)
Inductive item :=
| ISign1 (c : core) (d : option bytes)
| ISigner (m s : core) (d : option bytes)
| IEnc0 (c : core) | IEnc (c : core) | IMac0 (c : core) | IMac (c : core).

(** What is authenticated about it: the kind of message, the protected headers as bytes, those
    of the signer, the external data and the payload. *)
Record content := Content {
  ct_kind : kind; ct_protected : bytes; ct_signer : option bytes; ct_aad : bytes; ct_payload : option bytes }.

Inductive has_content : item -> content -> Prop :=
| HC_sign1 c d p pl : protected_field c p -> signed_payload (payload c) d pl ->
    has_content (ISign1 c d) (Content KindSign1 p None (aad c) (Some pl))
| HC_signer m s d p sp pl : phdr_encoded m = Ok p -> signer_protected s sp -> signed_payload (payload m) d pl ->
    has_content (ISigner m s d) (Content KindSign p sp (aad s) (Some pl))
| HC_enc0 c p : protected_field c p -> has_content (IEnc0 c) (Content KindEnc0 p None (aad c) None)
| HC_enc c p : protected_field c p -> has_content (IEnc c) (Content KindEnc p None (aad c) None)
| HC_mac0 c p pl : protected_field c p -> payload c = Some pl ->
    has_content (IMac0 c) (Content KindMac0 p None (aad c) (Some pl))
| HC_mac c p pl : protected_field c p -> payload c = Some pl ->
    has_content (IMac c) (Content KindMac p None (aad c) (Some pl)).

(** The bytes the primitive gets for it. *)
Definition input (i : item) : result bytes :=
  match i with
  | ISign1 c d => sign1_structure c (vopt d)
  | ISigner m s d => signer_structure (Some m) s (vopt d)
  | IEnc0 c => enc_structure "Encrypt0" c
  | IEnc c => enc_structure "Encrypt" c
  | IMac0 c => mac_structure "MAC0" c
  | IMac c => mac_structure "MAC" c
  end.

(** [t] is the input of no item in [l]: nobody who authenticated just these has given [t]
    to the primitive. *)
Definition fresh (t : bytes) (l : list item) : Prop := forall j, In j l -> input j <> Ok t.

(** [i] has a content that no item of [l] has. *)
Definition new_content (i : item) (l : list item) : Prop :=
  forall j c, In j l -> has_content i c -> ~ has_content j c.

(** The object holding the headers and key that are used. *)
Definition core_of (i : item) : core :=
  match i with ISign1 c _ | IEnc0 c | IEnc c | IMac0 c | IMac c => c | ISigner _ s _ => s end.

(** ** Primitives *)

(** RSA signatures: RFC 8230 section 2 and RFC 8812 section 2. *)
Definition rsa_schemes : list (Z * rsapad * hash) :=
  [ (-37, PSS, SHA256); (-38, PSS, SHA384); (-39, PSS, SHA512);
    (-257, PKCS1v15, SHA256); (-258, PKCS1v15, SHA384); (-259, PKCS1v15, SHA512); (-65535, PKCS1v15, SHA1) ]%Z.

(** The signature primitive of algorithm [z] accepts [s] for [t] under the public values of
    key [k]. *)
Inductive sig_accepts (X : crypto) : Z -> key -> bytes -> bytes -> Prop :=
| SA_ecdsa z c h k x y t s : In (z, c, h) ecdsa_curves ->
    prop_get k PX = Ok (VBytes x) -> prop_get k PY = Ok (VBytes y) ->
    x_ecdsa_verify X c h (of_be x) (of_be y) t s = Ok true -> sig_accepts X z k t s
| SA_eddsa k c x t s : In c [6; 7]%Z -> prop_get k PCrv = Ok (VClass (Cls FCrv c)) -> prop_get k PX = Ok (VBytes x) ->
    x_ed_verify X c x t s = Ok true -> sig_accepts X (-8) k t s
| SA_rsa z p h k e n t s : In (z, p, h) rsa_schemes ->
    prop_get k PE = Ok (VBytes e) -> prop_get k PN = Ok (VBytes n) ->
    x_rsa_verify X p h (RsaPub (of_be e) (of_be n)) t s = Ok true -> sig_accepts X z k t s.

(** [tag] is the MAC of [t], cut to the registered length. *)
Inductive mac_accepts (X : crypto) : Z -> key -> bytes -> bytes -> Prop :=
| MA_hmac z h n k b t : In (z, (h, n)) rfc_hmacs -> secret k b -> mac_accepts X z k t (firstn n (x_hmac X h b t))
| MA_cbc z n k b t blocks : In (z, n) rfc_aes_macs -> secret k b -> padded_blocks t blocks ->
    mac_accepts X z k t (firstn n (cbc_mac (x_aes X b) blocks)).

(** Authenticated decryption of [ct] with additional data [t] gives [pt]. *)
Inductive aead_opens (X : crypto) : Z -> key -> bytes -> bytes -> bytes -> bytes -> Prop :=
| AO_gcm z n k b nonce t ct pt : In (z, n) rfc_gcms -> secret k b -> x_gcm_dec X b nonce ct t = Ok pt -> aead_opens X z k nonce t ct pt
| AO_ccm z n l k b nonce t ct pt : In (z, (n, l)) rfc_ccms -> secret k b -> x_ccm_dec X l b nonce ct t = Ok pt -> aead_opens X z k nonce t ct pt.
