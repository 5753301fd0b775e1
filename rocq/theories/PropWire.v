(** C66: the bytes of encoded messages, against the specification in SpecWire.v. *)
From Coq Require Import NArith ZArith Bool String.
From Coq Require Import Init.Byte List.
From Verif Require Import Bytes Value SpecRfc SpecStruct SpecData Registry Crypto Toy Keys SpecKeys Algorithms Headers Messages Recipients
  SpecWire LayoutProofs WireProofs PropStruct PropHdr PropMsg PropRcpt PropRcptTrip.
Import ListNotations.

(** The specification determines the bytes of an object. *)
Theorem C66_items_determined : forall names v b b', rfc_item names v b -> rfc_item names v b' -> b = b'.
Proof. exact rfc_item_unique. Qed.
Print Assumptions C66_items_determined.

Theorem C66_sign1 : forall X seed m tag sign d b, sign1_encode X seed m tag sign (vopt d) = Ok b ->
  let c := s1_core m in
  exists p u s, protected_bytes c p /\ rfc_item (tstr c) (VDict (uhdr c)) u /\
    (if sign then exists alg k tbp pl sig, get_attr c Algorithm = Ok alg /\ ckey c = Some k /\ protected_field c tbp /\
        signed_payload (payload c) d pl /\ alg_sign X seed alg k (Sig_structure1 tbp (aad c) pl) = Ok sig /\ s = [rfc_bstr sig]
     else if truthy (s1_sig m) then exists x, rfc_item (tstr c) (s1_sig m) x /\ s = [x] else s = []) /\
    b = maybe_tag tag 18 (rfc_array ([rfc_bstr p; u; rfc_opt_bstr (payload c)] ++ s)).
Proof. exact sign1_layout. Qed.
Print Assumptions C66_sign1.

Theorem C66_enc0 : forall X c tag encrypt b, enc0_encode X c tag encrypt = Ok b ->
  exists p u body, protected_bytes c p /\ rfc_item (tstr c) (VDict (uhdr c)) u /\
    (if encrypt then exists ct, enc_encrypt X "Encrypt0" c = Ok ct /\ body = rfc_bstr ct else body = rfc_opt_bstr (payload c)) /\
    b = maybe_tag tag 16 (rfc_array [rfc_bstr p; u; body]).
Proof. exact enc0_layout. Qed.
Print Assumptions C66_enc0.

Theorem C66_mac0 : forall X m tag mac b, snd (mac0_encode X m tag mac) = Ok b ->
  let c := m0_core m in
  exists p u t, protected_bytes c p /\ rfc_item (tstr c) (VDict (uhdr c)) u /\
    (if mac then exists x, mac_compute X "MAC0" c = Ok x /\ t = [rfc_bstr x] else t = []) /\
    b = maybe_tag tag 17 (rfc_array ([rfc_bstr p; u; rfc_opt_bstr (payload c)] ++ t)).
Proof. exact mac0_layout. Qed.
Print Assumptions C66_mac0.

Theorem C66_sign : forall X seed m tag d b, sign_encode X seed m tag d = Ok b ->
  let c := sm_core m in
  exists p u xs, protected_bytes c p /\ rfc_item (tstr c) (VDict (uhdr c)) u /\
    Forall2 (fun s x => exists sp su sg seed', protected_bytes s sp /\ rfc_item (tstr c) (VDict (uhdr s)) su /\
      compute_signature X seed' s (signer_structure (Some c) s d) = Ok sg /\ x = rfc_array [rfc_bstr sp; su; rfc_bstr sg]) (sm_signers m) xs /\
    b = maybe_tag tag 98 (rfc_array ([rfc_bstr p; u; rfc_opt_bstr (payload c)] ++ recipients_field xs)).
Proof. exact sign_layout. Qed.
Print Assumptions C66_sign.

(** Encrypting and MACing may give the message a key and the recipients key material; the
    headers and payload written are those of the message before. *)
Theorem C66_enc : forall X n m tag encrypt n2 m2 b, encm_encode X n m tag encrypt = ((n2, m2), Ok b) ->
  let c := e_core m in
  exists p u body xs, protected_bytes c p /\ rfc_item (tstr c) (VDict (uhdr c)) u /\
    (exists k, e_core m2 = with_key c k) /\
    (if encrypt then exists ct, enc_encrypt X "Encrypt" (e_core m2) = Ok ct /\ body = rfc_bstr ct
     else body = rfc_opt_bstr (payload c)) /\
    Forall2 (rcpt_wire (tstr c)) (e_rcpts m2) xs /\
    b = maybe_tag tag 96 (rfc_array ([rfc_bstr p; u; body] ++ recipients_field xs)).
Proof. exact encm_layout. Qed.
Print Assumptions C66_enc.

Theorem C66_mac : forall X n m tag mac n2 m2 b, macm_encode X n m tag mac = ((n2, m2), Ok b) ->
  let c := mm_core m in
  exists p u t rs xs, protected_bytes c p /\ rfc_item (tstr c) (VDict (uhdr c)) u /\
    (exists k, mm_core m2 = with_key c k) /\
    (if mac then exists x, mac_compute X "MAC" (mm_core m2) = Ok x /\ t = [rfc_bstr x] else t = []) /\
    mm_rcpts m2 = Some rs /\ Forall2 (rcpt_wire (tstr c)) rs xs /\
    b = maybe_tag tag 97 (rfc_array ([rfc_bstr p; u; rfc_opt_bstr (payload c)] ++ t ++ recipients_field xs)).
Proof. exact macm_layout. Qed.
Print Assumptions C66_mac.

(** An untagged message without headers: the protected field is the empty byte string, the
    unprotected one the empty map. *)
Example C66_empty_headers_example : forall p u,
  protected_bytes (Core [] None [] [] false None [] None) p -> rfc_item false (VDict []) u ->
  rfc_array [rfc_bstr p; u; rfc_opt_bstr None] = [x83; x40; xa0; xf6].
Proof.
  intros p u [H _] HU. rewrite (H eq_refl). rewrite (rfc_item_unique false (VDict []) u (rfc_map [])); [reflexivity|exact HU|].
  apply RI_dict. constructor.
Qed.

Example C66_wire_example :
  (exists b, sign1_encode toy 0 (Sign1 (Core ex_es256 None [(KID, VBytes (bs "11"))] [] false (Some (bs "pay")) [x01] (Some ex_ec2_key)) VNone)
     true true (vopt None) = Ok b) /\
  (exists s b, encm_encode toy 3 ex_mixed true true = (s, Ok b)) /\
  (exists s b, encm_encode toy 0 (ex_enc [ex_kw 0 (Some ex_sym) [ex_kw 1 (Some ex_sym) []]]) false true = (s, Ok b)) /\
  (exists s b, macm_encode toy 0 (ex_mac [ex_direct 0; ex_direct 1]) true true = (s, Ok b)).
Proof.
  split; [eexists; vm_compute; reflexivity|]. split; [do 2 eexists; vm_compute; reflexivity|].
  split; do 2 eexists; vm_compute; reflexivity.
Qed.
