(** C03-C08, C11, C50, C64-C66: what is signed, MACed and authenticated.

    Vocabulary: SpecStruct.v ([protected_field], [signed_payload], [authenticates],
    [bad_payloads], [present]) and SpecRfc.v (byte-level RFC 8152 structures).
    [vopt None] is Python's None, [vopt (Some b)] a byte string. *)
From Coq Require Import NArith ZArith Bool String.
From Coq Require Import Init.Byte List.
From Verif Require Import Bytes Value Cbor SpecData Registry Crypto Keys Algorithms Headers Messages
  Recipients SpecRfc SpecStruct StructProofs KdfProofs LayoutProofs Toy.
Import ListNotations.
Local Open Scope N_scope.

(** Messages used in the examples. *)
Definition ex_core (p u : dict) (pl : option bytes) (a : bytes) : core :=
  Core p None u [] false pl a None.
Definition ex_es256 : dict := [(Algorithm, VClass (Cls FAlg (-7)))].

(** C03. Equal to-be-signed bytes come from equal protected bytes, external_aad and
    payload. *)
Theorem C03_sign1_injective : forall c1 c2 d1 d2 t,
  sign1_structure c1 (vopt d1) = Ok t -> sign1_structure c2 (vopt d2) = Ok t ->
  exists p pl, protected_field c1 p /\ protected_field c2 p /\
    aad c1 = aad c2 /\
    signed_payload (payload c1) d1 pl /\ signed_payload (payload c2) d2 pl.
Proof. exact sign1_tbs_inj. Qed.
Print Assumptions C03_sign1_injective.

(** Moving a byte between external_aad and payload: both sign, with different input. *)
Example C03_example :
  let c1 := ex_core ex_es256 [] (Some (bs "ab")) (bs "c") in
  let c2 := ex_core ex_es256 [] None (bs "ca") in
  exists t1 t2, sign1_structure c1 (vopt None) = Ok t1 /\
    sign1_structure c2 (vopt (Some (bs "b"))) = Ok t2 /\ t1 <> t2.
Proof.
  cbv zeta. eexists. eexists. split; [vm_compute; reflexivity|].
  split; [vm_compute; reflexivity|]. discriminate.
Qed.

(** C04. The same for COSE_Sign signers; [signer_protected s None] says the signer has
    no protected headers. *)
Theorem C04_signer_injective : forall m1 m2 s1 s2 d1 d2 t,
  signer_structure (Some m1) s1 (vopt d1) = Ok t -> signer_structure (Some m2) s2 (vopt d2) = Ok t ->
  exists bp sp pl, phdr_encoded m1 = Ok bp /\ phdr_encoded m2 = Ok bp /\
    signer_protected s1 sp /\ signer_protected s2 sp /\
    aad s1 = aad s2 /\
    signed_payload (payload m1) d1 pl /\ signed_payload (payload m2) d2 pl.
Proof. exact signer_tbs_inj. Qed.
Print Assumptions C04_signer_injective.

Example C04_example :
  let m := ex_core ex_es256 [] (Some (bs "payload")) [] in
  let s1 := ex_core [(KID, VBytes (bs "11"))] [] None (bs "x") in
  let s2 := ex_core [] [] None (bs "x") in
  exists t1 t2, signer_structure (Some m) s1 (vopt None) = Ok t1 /\
    signer_structure (Some m) s2 (vopt None) = Ok t2 /\ t1 <> t2.
Proof.
  cbv zeta. eexists. eexists. split; [vm_compute; reflexivity|].
  split; [vm_compute; reflexivity|]. discriminate.
Qed.

(** C05. Equal additional authenticated data of encrypted messages; messages of the two
    kinds (context strings "Encrypt0" and "Encrypt") never share it. *)
Theorem C05_enc_aad_injective : forall ctx1 ctx2 c1 c2 t,
  enc_structure ctx1 c1 = Ok t -> enc_structure ctx2 c2 = Ok t ->
  ctx1 = ctx2 /\ exists p, protected_field c1 p /\ protected_field c2 p /\ aad c1 = aad c2.
Proof. exact enc_aad_inj. Qed.
Print Assumptions C05_enc_aad_injective.

Example C05_example :
  let c1 := ex_core [(Algorithm, VClass (Cls FAlg 1))] [] None (bs "c") in
  let c2 := ex_core [(Algorithm, VClass (Cls FAlg 2))] [] None (bs "c") in
  exists t1 t2, enc_structure "Encrypt0" c1 = Ok t1 /\ enc_structure "Encrypt0" c2 = Ok t2 /\ t1 <> t2.
Proof.
  cbv zeta. eexists. eexists. split; [vm_compute; reflexivity|].
  split; [vm_compute; reflexivity|]. discriminate.
Qed.

(** C06. Equal MAC inputs. *)
Theorem C06_mac_input_injective : forall ctx1 ctx2 c1 c2 t,
  mac_structure ctx1 c1 = Ok t -> mac_structure ctx2 c2 = Ok t ->
  ctx1 = ctx2 /\ exists p pl, protected_field c1 p /\ protected_field c2 p /\ aad c1 = aad c2 /\
    payload c1 = Some pl /\ payload c2 = Some pl.
Proof. exact mac_input_inj. Qed.
Print Assumptions C06_mac_input_injective.

Example C06_example :
  let c1 := ex_core [(Algorithm, VClass (Cls FAlg 5))] [] (Some (bs "ab")) (bs "c") in
  let c2 := ex_core [(Algorithm, VClass (Cls FAlg 5))] [] (Some (bs "b")) (bs "ca") in
  exists t1 t2, mac_structure "MAC0" c1 = Ok t1 /\ mac_structure "MAC0" c2 = Ok t2 /\ t1 <> t2.
Proof.
  cbv zeta. eexists. eexists. split; [vm_compute; reflexivity|].
  split; [vm_compute; reflexivity|]. discriminate.
Qed.

(** C07. Bytes authenticated by one kind of message are never those of another kind. *)
Theorem C07_domain_separation : forall k1 k2 t,
  authenticates k1 t -> authenticates k2 t -> k1 = k2.
Proof. exact authenticates_kind. Qed.
Print Assumptions C07_domain_separation.

Example C07_example :
  let c := ex_core ex_es256 [] (Some (bs "ab")) [] in
  (exists t, authenticates KindSign1 t) /\ (exists t, authenticates KindSign t) /\
  (exists t, authenticates KindEnc0 t) /\ (exists t, authenticates KindEnc t) /\
  (exists t, authenticates KindMac0 t) /\ (exists t, authenticates KindMac t).
Proof.
  intros c. repeat split; eexists.
  - apply (Auth_sign1 c VNone). vm_compute. reflexivity.
  - apply (Auth_sign (Some c) c VNone). vm_compute. reflexivity.
  - apply (Auth_enc0 c). vm_compute. reflexivity.
  - apply (Auth_enc c). vm_compute. reflexivity.
  - apply (Auth_mac0 c). vm_compute. reflexivity.
  - apply (Auth_mac c). vm_compute. reflexivity.
Qed.

(** C08. Padding for AES-CBC-MAC: the shortest run of zero bytes that fills the last
    16-byte block... *)
Theorem C08_zero_padding : forall l, exists n, (n < 16)%nat /\ zero_pad l = l ++ repeat x00 n /\
  (length (zero_pad l) mod 16 = 0)%nat.
Proof. exact zero_pad_spec. Qed.
Print Assumptions C08_zero_padding.

Theorem C08_padding_is_shortest : forall l n, (length (l ++ repeat x00 n) mod 16 = 0)%nat ->
  (length (zero_pad l) <= length (l ++ repeat x00 n))%nat.
Proof. exact zero_pad_shortest. Qed.
Print Assumptions C08_padding_is_shortest.

(** ... and although zero padding is ambiguous in general, two MAC inputs never pad to
    the same blocks. *)
Theorem C08_padded_inputs_distinct : forall ctx1 ctx2 c1 c2 t1 t2,
  mac_structure ctx1 c1 = Ok t1 -> mac_structure ctx2 c2 = Ok t2 ->
  zero_pad t1 = zero_pad t2 -> t1 = t2.
Proof. exact zero_pad_mac_inj. Qed.
Print Assumptions C08_padded_inputs_distinct.

Example C08_ambiguous_in_general : zero_pad [x01] = zero_pad [x01; x00].
Proof. reflexivity. Qed.

Example C08_example :
  let c pl := ex_core [(Algorithm, VClass (Cls FAlg 14))] [] (Some pl) [] in
  exists t1 t2, mac_structure "MAC0" (c [x01]) = Ok t1 /\ mac_structure "MAC0" (c [x01; x00]) = Ok t2 /\
    zero_pad t1 <> zero_pad t2.
Proof.
  cbv zeta. eexists. eexists. split; [vm_compute; reflexivity|].
  split; [vm_compute; reflexivity|]. vm_compute. discriminate.
Qed.

(** C11. A Sign1 message with the payload attached, and the same message without it but
    with the payload passed as detached, produce the same signature and verify the same
    signatures. *)
Theorem C11_detached_same_signature : forall X seed c p,
  compute_signature X seed (with_payload c (Some p)) (sign1_structure (with_payload c (Some p)) VNone) =
  compute_signature X seed (with_payload c None) (sign1_structure (with_payload c None) (VBytes p)).
Proof. reflexivity. Qed.
Print Assumptions C11_detached_same_signature.

Theorem C11_detached_same_verdict : forall X c sig p,
  sign1_verify X (Sign1 (with_payload c (Some p)) sig) VNone =
  sign1_verify X (Sign1 (with_payload c None) sig) (VBytes p).
Proof. reflexivity. Qed.
Print Assumptions C11_detached_same_verdict.

Theorem C11_signer_detached_same_signature : forall X seed m s p,
  signer_encode X seed (Some (with_payload m (Some p))) s VNone =
  signer_encode X seed (Some (with_payload m None)) s (VBytes p) /\
  signer_verify X (Some (with_payload m (Some p))) s VNone =
  signer_verify X (Some (with_payload m None)) s (VBytes p).
Proof. split; reflexivity. Qed.
Print Assumptions C11_signer_detached_same_signature.

(** Both payloads or neither: signing and verifying fail, in the same way whatever the
    primitives are, so none of them decided the outcome... *)
Theorem C11_sign1_rejected : forall X X' seed m tag d,
  bad_payloads (payload (s1_core m)) d ->
  (sign1_encode X seed m tag true d = sign1_encode X' seed m tag true d) /\
  (exists e, sign1_encode X seed m tag true d = Err e) /\
  (sign1_verify X m d = sign1_verify X' m d) /\
  (exists e, sign1_verify X m d = Err e).
Proof. exact sign1_bad_payloads. Qed.
Print Assumptions C11_sign1_rejected.

(** ... and with a usable algorithm, key and protected header, by CoseException. *)
Theorem C11_sign1_rejected_exception : forall X seed m tag d alg k p,
  bad_payloads (payload (s1_core m)) d ->
  get_attr (s1_core m) Algorithm = Ok alg -> has_sign alg = Ok tt ->
  phdr_encoded (s1_core m) = Ok p ->
  (key_verification (s1_core m) alg SignOp = Ok k ->
   sign1_encode X seed m tag true d = Err CoseException) /\
  (key_verification (s1_core m) alg VerifyOp = Ok k ->
   sign1_verify X m d = Err CoseException).
Proof. exact sign1_bad_payloads_exn. Qed.
Print Assumptions C11_sign1_rejected_exception.

Theorem C11_signer_rejected : forall X X' seed m s d,
  bad_payloads (payload m) d ->
  (signer_encode X seed (Some m) s d = signer_encode X' seed (Some m) s d) /\
  (exists e, signer_encode X seed (Some m) s d = Err e) /\
  (signer_verify X (Some m) s d = signer_verify X' (Some m) s d) /\
  (exists e, signer_verify X (Some m) s d = Err e).
Proof. exact signer_bad_payloads. Qed.
Print Assumptions C11_signer_rejected.

Definition ex_ec2_key : key :=
  Key KEC2 [(VClass KpKty, KtyEC2); (VClass EC2KpCurve, VClass (Cls FCrv 1));
            (VClass EC2KpX, VBytes (to_be 32 7)); (VClass EC2KpY, VBytes (to_be 32 8));
            (VClass EC2KpD, VBytes (to_be 32 7))] [].

(** The key is what the constructor returns, the message can be signed attached and
    detached, and is refused with both. *)
Example C11_example :
  ec2_init toy (VClass (Cls FCrv 1)) (VBytes []) (VBytes []) (VBytes (to_be 32 7)) VNone true = Ok ex_ec2_key /\
  let c := Core ex_es256 None [] [] false (Some (bs "pay")) [] (Some ex_ec2_key) in
  (exists s, compute_signature toy 0 (with_payload c None)
     (sign1_structure (with_payload c None) (VBytes (bs "pay"))) = Ok s) /\
  sign1_encode toy 0 (Sign1 c (VBytes [])) true true (VBytes (bs "pay")) = Err CoseException /\
  bad_payloads (payload c) (VBytes (bs "pay")).
Proof.
  split; [vm_compute; reflexivity|]. cbv zeta. split; [eexists; vm_compute; reflexivity|].
  split; [vm_compute; reflexivity|]. left. split; discriminate.
Qed.

(** C50. Equal encodings of KDF contexts come from equal fields. *)
Theorem C50_kdf_context_injective : forall k1 k2 t,
  kdf_plain k1 = true -> kdf_plain k2 = true ->
  kdf_encode k1 = Ok t -> kdf_encode k2 = Ok t ->
  identifier_of (kc_alg k1) = identifier_of (kc_alg k2) /\
  kc_u k1 = kc_u k2 /\ kc_v k1 = kc_v k2 /\ kc_len k1 = kc_len k2 /\
  (exists p, dumps cls_fullname HIdent (VDict (kc_protected k1)) = Ok p /\
             dumps cls_fullname HIdent (VDict (kc_protected k2)) = Ok p) /\
  kc_pub_other k1 = kc_pub_other k2 /\ kc_priv k1 = kc_priv k2.
Proof. exact kdf_inj. Qed.
Print Assumptions C50_kdf_context_injective.

Example C50_example :
  let k po pr := Kdf (VClass (Cls FAlg 1)) [VBytes (bs "lighting"); VNone; VNone]
                     [VBytes (bs "sec"); VNone; VBytes [x01]] 16
                     [(Algorithm, VClass (Cls FAlg (-25)))] (VBytes po) (VBytes pr) in
  kdf_plain (k (bs "a") []) = true /\ kdf_plain (k [] (bs "a")) = true /\
  exists t1 t2, kdf_encode (k (bs "a") []) = Ok t1 /\ kdf_encode (k [] (bs "a")) = Ok t2 /\ t1 <> t2.
Proof.
  cbv zeta. split; [reflexivity|]. split; [reflexivity|]. eexists. eexists.
  split; [vm_compute; reflexivity|]. split; [vm_compute; reflexivity|]. discriminate.
Qed.

(** C64. Signing, verifying, encrypting, decrypting, MACing and checking a MAC hand the
    RFC 8152 structure to the algorithm, byte for byte. *)
Theorem C64_sign1_signs_rfc_structure : forall X seed m tag d b,
  sign1_encode X seed m tag true (vopt d) = Ok b ->
  let c := s1_core m in
  exists alg k p tbp pl sig u,
    get_attr c Algorithm = Ok alg /\ ckey c = Some k /\
    phdr_encoded c = Ok p /\ protected_field c tbp /\ signed_payload (payload c) d pl /\
    alg_sign X seed alg k (Sig_structure1 tbp (aad c) pl) = Ok sig /\
    dumps_msg c (VDict (uhdr c)) = Ok u /\
    b = maybe_tag tag 18 (rfc_array [rfc_bstr p; u; rfc_opt_bstr (payload c); rfc_bstr sig]).
Proof. exact sign1_encode_rfc. Qed.
Print Assumptions C64_sign1_signs_rfc_structure.

Theorem C64_sign1_verifies_rfc_structure : forall X m d r,
  sign1_verify X m (vopt d) = Ok r ->
  let c := s1_core m in
  exists alg k tbp pl,
    get_attr c Algorithm = Ok alg /\ ckey c = Some k /\
    protected_field c tbp /\ signed_payload (payload c) d pl /\
    alg_verify X alg k (Sig_structure1 tbp (aad c) pl) (s1_sig m) = Ok r.
Proof. exact sign1_verify_rfc. Qed.
Print Assumptions C64_sign1_verifies_rfc_structure.

Theorem C64_encrypts_with_rfc_structure : forall X ctx c e, enc_encrypt X ctx c = Ok e ->
  exists alg k nonce p, get_attr c Algorithm = Ok alg /\ ckey c = Some k /\ get_nonce c = Ok nonce /\
    protected_field c p /\
    alg_encrypt X alg k nonce (vopt (payload c)) (Enc_structure ctx p (aad c)) = Ok e.
Proof. exact enc_encrypt_rfc. Qed.
Print Assumptions C64_encrypts_with_rfc_structure.

Theorem C64_decrypts_with_rfc_structure : forall X ctx c e, enc_decrypt X ctx c = Ok e ->
  exists alg k nonce p, get_attr c Algorithm = Ok alg /\ ckey c = Some k /\ get_nonce c = Ok nonce /\
    protected_field c p /\
    alg_decrypt X alg k nonce (vopt (payload c)) (Enc_structure ctx p (aad c)) = Ok e.
Proof. exact enc_decrypt_rfc. Qed.
Print Assumptions C64_decrypts_with_rfc_structure.

Theorem C64_macs_rfc_structure : forall X ctx c e, mac_compute X ctx c = Ok e ->
  exists alg k p pl, get_attr c Algorithm = Ok alg /\ ckey c = Some k /\
    protected_field c p /\ payload c = Some pl /\
    alg_compute_tag X alg k (MAC_structure ctx p (aad c) pl) = Ok e.
Proof. exact mac_compute_rfc. Qed.
Print Assumptions C64_macs_rfc_structure.

Theorem C64_checks_mac_of_rfc_structure : forall X ctx c tag r, mac_verify X ctx c tag = Ok r ->
  exists alg k p pl, get_attr c Algorithm = Ok alg /\ ckey c = Some k /\
    protected_field c p /\ payload c = Some pl /\
    alg_verify_tag X alg k tag (MAC_structure ctx p (aad c) pl) = Ok r.
Proof. exact mac_verify_rfc. Qed.
Print Assumptions C64_checks_mac_of_rfc_structure.

(** COSE_Sign signers, part that holds: the signer has protected headers, and the body's
    protected header was not received as an explicit empty map. Missing: the two cases
    refuted below. *)
Theorem C64_signer_signs_rfc_structure_partial : forall X seed m s d v,
  signer_encode X seed (Some m) s (vopt d) = Ok v -> phdr s <> [] -> plain_protected m ->
  exists alg k p bp pl sig,
    get_attr s Algorithm = Ok alg /\ ckey s = Some k /\
    phdr_encoded s = Ok p /\ protected_field m bp /\ signed_payload (payload m) d pl /\
    alg_sign X seed alg k (Sig_structure bp p (aad s) pl) = Ok sig /\
    v = VList [VBytes p; VDict (uhdr s); VBytes sig].
Proof. exact signer_encode_rfc. Qed.
Print Assumptions C64_signer_signs_rfc_structure_partial.

Theorem C64_signer_verifies_rfc_structure_partial : forall X m s d r,
  signer_verify X (Some m) s (vopt d) = Ok r -> phdr s <> [] -> plain_protected m ->
  exists alg k p bp pl,
    get_attr s Algorithm = Ok alg /\ ckey s = Some k /\
    phdr_encoded s = Ok p /\ protected_field m bp /\ signed_payload (payload m) d pl /\
    alg_verify X alg k (Sig_structure bp p (aad s) pl) (vopt (payload s)) = Ok r.
Proof. exact signer_verify_rfc. Qed.
Print Assumptions C64_signer_verifies_rfc_structure_partial.

(** Refuted: a signer without protected headers signs a structure that lacks the
    sign_protected field. *)
Theorem C64_empty_signer_header_refuted : exists m s t,
  signer_structure (Some m) s VNone = Ok t /\
  protected_field m [] /\ protected_field s [] /\ payload m = Some (bs "x") /\
  t <> Sig_structure [] [] (aad s) (bs "x").
Proof.
  exists (ex_core [] [] (Some (bs "x")) []), (ex_core [] [] None []). eexists.
  split; [vm_compute; reflexivity|]. split; [split; [reflexivity|intros HN; elim HN; reflexivity]|].
  split; [split; [reflexivity|intros HN; elim HN; reflexivity]|]. split; [reflexivity|]. vm_compute. discriminate.
Qed.
Print Assumptions C64_empty_signer_header_refuted.

(** Refuted: a body header received as the explicit empty map (a0) is signed as a0, not
    as the empty string. *)
Theorem C64_explicit_empty_body_refuted : exists m s t sp,
  signer_structure (Some m) s VNone = Ok t /\
  protected_field m [] /\ protected_field s sp /\ payload m = Some (bs "x") /\
  t <> Sig_structure [] sp (aad s) (bs "x").
Proof.
  exists (Core [] (Some [xa0]) [] [] false (Some (bs "x")) [] None), (ex_core ex_es256 [] None []).
  eexists. exists (unhex "a10126").
  split; [vm_compute; reflexivity|]. split; [split; [reflexivity|intros HN; elim HN; reflexivity]|].
  split; [split; [discriminate|reflexivity]|]. split; [reflexivity|]. vm_compute. discriminate.
Qed.
Print Assumptions C64_explicit_empty_body_refuted.

Example C64_example :
  let c := Core ex_es256 None [(KID, VBytes (bs "11"))] [] false (Some (bs "pay")) [x01] (Some ex_ec2_key) in
  (exists b, sign1_encode toy 0 (Sign1 c (VBytes [])) true true (vopt None) = Ok b) /\
  (exists v, signer_encode toy 0 (Some c) c (vopt None) = Ok v) /\ phdr c <> [] /\ plain_protected c.
Proof.
  cbv zeta. split; [eexists; vm_compute; reflexivity|]. split; [eexists; vm_compute; reflexivity|].
  split; [discriminate|]. left. discriminate.
Qed.

(** C65, part that holds: recipients with protected headers that were not received, no
    text algorithm names, and byte-string (or absent) party information. Missing: the
    cases refuted below. *)
Theorem C65_kdf_context_rfc_partial : forall c alg ui un uo vi vn vo po pr k t i,
  get_kdf_context c alg = Ok k -> kdf_encode k = Ok t -> identifier_of alg = Some i ->
  phdr c <> [] -> phdr_raw c = None -> tstr c = false ->
  get_attr c PartyUID = Ok (vopt ui) -> get_attr c PartyUNonce = Ok (vopt un) ->
  get_attr c PartyUOther = Ok (vopt uo) ->
  get_attr c PartyVID = Ok (vopt vi) -> get_attr c PartyVNonce = Ok (vopt vn) ->
  get_attr c PartyVOther = Ok (vopt vo) ->
  dget_or (local c) SuppPubOther (VBytes []) = VBytes po ->
  dget_or (local c) SuppPrivOther (VBytes []) = VBytes pr ->
  exists len p, get_key_length alg = Ok len /\ phdr_encoded c = Ok p /\
    t = KDF_Context i (PartyInfo_structure ui un uo) (PartyInfo_structure vi vn vo)
          (8 * N.of_nat len) p (present po) (present pr).
Proof. exact kdf_rfc. Qed.
Print Assumptions C65_kdf_context_rfc_partial.

(** Refuted: without protected headers, the context contains an encoded empty map
    instead of a zero-length string. *)
Theorem C65_empty_header_refuted : exists c k t,
  get_kdf_context c (VClass (Cls FAlg 1)) = Ok k /\ kdf_encode k = Ok t /\
  phdr_encoded c = Ok [] /\
  t <> KDF_Context 1 (PartyInfo_structure None None None) (PartyInfo_structure None None None)
         128 [] None None.
Proof.
  exists (ex_core [] [] None []). eexists. eexists. split; [vm_compute; reflexivity|].
  split; [vm_compute; reflexivity|]. split; [reflexivity|]. vm_compute. discriminate.
Qed.
Print Assumptions C65_empty_header_refuted.

(** Refuted: a header received in a non-preferred encoding is re-encoded. *)
Theorem C65_received_header_refuted : exists c k t p,
  get_kdf_context c (VClass (Cls FAlg 1)) = Ok k /\ kdf_encode k = Ok t /\
  phdr_encoded c = Ok p /\
  t <> KDF_Context 1 (PartyInfo_structure None None None) (PartyInfo_structure None None None)
         128 p None None.
Proof.
  exists (Core [(Algorithm, VClass (Cls FAlg (-25)))] (Some (unhex "a118013818")) [] [] false None [] None).
  eexists. eexists. eexists. split; [vm_compute; reflexivity|].
  split; [vm_compute; reflexivity|]. split; [reflexivity|]. vm_compute. discriminate.
Qed.
Print Assumptions C65_received_header_refuted.

Example C65_example :
  let c := ex_core [(Algorithm, VClass (Cls FAlg (-25)))] [(PartyUID, VBytes (bs "u"))] None [] in
  exists k t, get_kdf_context c (VClass (Cls FAlg 1)) = Ok k /\ kdf_encode k = Ok t /\
   phdr c <> [] /\ get_attr c PartyUID = Ok (vopt (Some (bs "u"))) /\
   get_attr c PartyVOther = Ok (vopt None).
Proof.
  cbv zeta. eexists. eexists. split; [vm_compute; reflexivity|]. split; [vm_compute; reflexivity|].
  split; [discriminate|]. split; reflexivity.
Qed.

(** C66 is in PropWire.v. *)
Example C66_example :
  let c := Core ex_es256 None [(KID, VBytes (bs "11"))] [] false (Some (bs "pay")) [x01] (Some ex_ec2_key) in
  exists b, sign_encode toy 0 (SignMsg c [c; c]) false VNone = Ok b.
Proof. eexists. vm_compute. reflexivity. Qed.
