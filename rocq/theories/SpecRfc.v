(** Specification: byte-level RFC 7049 encodings and the structures of RFC 8152,
    written from the RFCs and independent of the encoder in Cbor.v. *)
From Coq Require Import NArith ZArith Bool String.
From Coq Require Import Init.Byte List.
From Verif Require Import Bytes.
Import ListNotations.
Local Open Scope N_scope.

(** RFC 7049 section 2.1: major type and argument in the shortest form. *)
Definition rfc_head (major n : N) : bytes :=
  map byte_of_N
    (if n <? 24 then [32 * major + n]
     else if n <? 2 ^ 8 then [32 * major + 24; n]
     else if n <? 2 ^ 16 then [32 * major + 25; n / 2 ^ 8; n]
     else if n <? 2 ^ 32 then [32 * major + 26; n / 2 ^ 24; n / 2 ^ 16; n / 2 ^ 8; n]
     else [32 * major + 27; n / 2 ^ 56; n / 2 ^ 48; n / 2 ^ 40; n / 2 ^ 32;
           n / 2 ^ 24; n / 2 ^ 16; n / 2 ^ 8; n]).

Definition rfc_uint (n : N) : bytes := rfc_head 0 n.
Definition rfc_int (z : Z) : bytes :=
  if (z <? 0)%Z then rfc_head 1 (Z.to_N (-1 - z)) else rfc_head 0 (Z.to_N z).
Definition rfc_bstr (b : bytes) : bytes := rfc_head 2 (N.of_nat (length b)) ++ b.
Definition rfc_tstr (s : string) : bytes := rfc_head 3 (N.of_nat (length (bs s))) ++ bs s.
Definition rfc_array (items : list bytes) : bytes :=
  rfc_head 4 (N.of_nat (length items)) ++ concat items.
Definition rfc_tag (t : N) (item : bytes) : bytes := rfc_head 6 t ++ item.
Definition rfc_null : bytes := [xf6].

(** RFC 8152 section 4.4:
    Sig_structure = [ context, body_protected, ? sign_protected, external_aad, payload ]
    where sign_protected is present exactly for "Signature" (COSE_Sign signers). *)
Definition Sig_structure1 (body_protected external_aad payload : bytes) : bytes :=
  rfc_array [rfc_tstr "Signature1"; rfc_bstr body_protected; rfc_bstr external_aad; rfc_bstr payload].

Definition Sig_structure (body_protected sign_protected external_aad payload : bytes) : bytes :=
  rfc_array [rfc_tstr "Signature"; rfc_bstr body_protected; rfc_bstr sign_protected;
             rfc_bstr external_aad; rfc_bstr payload].

(** Section 5.3: Enc_structure = [ context, protected, external_aad ]. *)
Definition Enc_structure (context : string) (protected external_aad : bytes) : bytes :=
  rfc_array [rfc_tstr context; rfc_bstr protected; rfc_bstr external_aad].

(** Section 6.3: MAC_structure = [ context, protected, external_aad, payload ]. *)
Definition MAC_structure (context : string) (protected external_aad payload : bytes) : bytes :=
  rfc_array [rfc_tstr context; rfc_bstr protected; rfc_bstr external_aad; rfc_bstr payload].

(** Section 11.2: COSE_KDF_Context. A party's fields and SuppPrivInfo are optional. *)
Definition rfc_opt_bstr (o : option bytes) : bytes :=
  match o with Some b => rfc_bstr b | None => rfc_null end.

Definition PartyInfo_structure (identity nonce other : option bytes) : bytes :=
  rfc_array [rfc_opt_bstr identity; rfc_opt_bstr nonce; rfc_opt_bstr other].

Definition KDF_Context (alg : Z) (u v : bytes) (bits : N) (protected : bytes)
    (pub_other priv : option bytes) : bytes :=
  rfc_array
    ([rfc_int alg; u; v;
      rfc_array ([rfc_uint bits; rfc_bstr protected] ++
                 match pub_other with Some o => [rfc_bstr o] | None => [] end)] ++
     match priv with Some o => [rfc_bstr o] | None => [] end).
