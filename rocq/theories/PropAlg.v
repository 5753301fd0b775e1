(** C09, C40, C41, C44, C52-C54, C68-C70: algorithms, nonces, base64, X.509 values.

    Vocabulary: SpecAlg.v. Theorems quantify over the primitives [X]; laws of the
    primitives are hypotheses. *)
From Coq Require Import NArith ZArith Bool String Lia.
From Coq Require Import Init.Byte List.
From Verif Require Import Bytes BytesProofs Value Cbor DataProofs Registry Crypto Keys Algorithms Headers Messages Misc
  SpecCrypto SpecAlg SpecKeys SpecRegistry KeyProofs KeyProofs4 AlgProofs MiscProofs Toy.
Import ListNotations.

(** The message and key of the examples: A128GCM in the protected header. *)
Definition ex_key (b base : bytes) : key :=
  match sym_init (VBytes b) (VDict [(VStr (bs "BASE_IV"), VBytes base)]) true with
  | Ok k => k | Err _ => Key KSym [] [] end.
Definition ex_core (a : Z) (u : dict) (k : key) : core :=
  match core_init toy (Args (VDict [(VStr (bs "ALG"), alg a)]) (VDict u) (VBytes (bs "hello")) (VBytes []) (kval k)
                            VNone false false) with
  | Ok c => c | Err _ => Core [] None [] [] false None [] None end.

(** C09. The tag of a message has the registered length and is the leading part of the
    HMAC, or of the CBC-MAC over zero-padded blocks, of the MAC_structure. *)
Theorem C09_hmac : forall X ctx c z h n tag, In (z, (h, n)) rfc_hmacs -> law_hmac_len X ->
  header c Algorithm (alg z) -> mac_compute X ctx c = Ok tag ->
  exists k b data rest, ckey c = Some k /\ secret k b /\ mac_structure ctx c = Ok data /\
    length tag = n /\ x_hmac X h b data = tag ++ rest.
Proof.
  intros X ctx c z h n tag HI HL HH H. unfold mac_compute in H. rewrite (get_attr_header _ _ _ HH) in H. cbn [bind] in H.
  destruct (ckey c) as [k|]; [|discriminate]. inv_bind H u1. inv_bind H u2. inv_bind H data.
  destruct (hmac_tag X z h n k data tag HI HL H) as (b & rest & H3 & H4 & H5).
  exists k, b, data, rest. auto.
Qed.
Print Assumptions C09_hmac.

Theorem C09_aes_mac : forall X ctx c z n tag, In (z, n) rfc_aes_macs -> law_aes_len X ->
  header c Algorithm (alg z) -> mac_compute X ctx c = Ok tag ->
  exists k b data blocks rest, ckey c = Some k /\ secret k b /\ mac_structure ctx c = Ok data /\
    padded_blocks data blocks /\ length tag = n /\ cbc_mac (x_aes X b) blocks = tag ++ rest.
Proof.
  intros X ctx c z n tag HI HL HH H. unfold mac_compute in H. rewrite (get_attr_header _ _ _ HH) in H. cbn [bind] in H.
  destruct (ckey c) as [k|]; [|discriminate]. inv_bind H u1. inv_bind H u2. inv_bind H data.
  destruct (cbc_tag X z n k data tag HI HL (mac_structure_nonempty _ _ _ H2) H) as (b & blocks & rest & H3 & H4 & H5 & H6).
  exists k, b, data, blocks, rest. auto 10.
Qed.
Print Assumptions C09_aes_mac.

(** Verification accepts exactly the computed tag: no shorter or longer one. *)
Theorem C09_verification : forall X a k tag data, alg_verify_tag X a k tag data = Ok true <->
  exists t, alg_compute_tag X a k data = Ok t /\ tag = VBytes t.
Proof. exact verify_tag_iff. Qed.
Print Assumptions C09_verification.

Example C09_example :
  let k := ex_key (repeat x01 16) [x01] in
  (exists t, mac_compute toy "MAC0" (ex_core 4 [] k) = Ok t /\ length t = 8%nat) /\
  (exists t, mac_compute toy "MAC0" (ex_core 25 [] k) = Ok t /\ length t = 16%nat) /\
  (exists t, mac_compute toy "MAC" (ex_core 14 [] k) = Ok t /\ length t = 8%nat) /\
  header (ex_core 4 [] k) Algorithm (alg 4).
Proof.
  cbv zeta. split; [|split; [|split]].
  - eexists. split; [vm_compute; reflexivity|]. reflexivity.
  - eexists. split; [vm_compute; reflexivity|]. reflexivity.
  - eexists. split; [vm_compute; reflexivity|]. reflexivity.
  - left. split; vm_compute; reflexivity.
Qed.

(** C70. The same for direct use of the algorithm classes. *)
Theorem C70_algorithm_tags_partial : forall X k data tag,
  (forall z h n, In (z, (h, n)) rfc_hmacs -> law_hmac_len X -> alg_compute_tag X (alg z) k data = Ok tag ->
     exists b rest, secret k b /\ length tag = n /\ x_hmac X h b data = tag ++ rest) /\
  (forall z n, In (z, n) rfc_aes_macs -> law_aes_len X -> data <> [] -> alg_compute_tag X (alg z) k data = Ok tag ->
     exists b blocks rest, secret k b /\ padded_blocks data blocks /\ length tag = n /\
       cbc_mac (x_aes X b) blocks = tag ++ rest).
Proof.
  intros X k data tag. split; intros.
  - eapply hmac_tag; eassumption.
  - eapply cbc_tag; eassumption.
Qed.
Print Assumptions C70_algorithm_tags_partial.

(** Missing from C70: the AES-CBC-MAC of no data is empty, whatever the cipher. *)
Theorem C70_empty_input_refuted : forall X z n k b, In (z, n) rfc_aes_macs -> secret k b -> length b = 16%nat ->
  alg_compute_tag X (alg z) k [] = Ok [].
Proof.
  intros X z n k b HI HS HL. unfold secret in HS.
  assert (HK : aes_key k = Ok b) by (unfold aes_key, attr_bytes; rewrite HS; cbn [bind as_bytes]; rewrite HL; reflexivity).
  repeat (destruct HI as [HI|HI]; [injection HI as <- <-; unfold alg_compute_tag;
    match goal with |- context [alg_kind ?a] => let v := eval vm_compute in (alg_kind a) in
      replace (alg_kind a) with v by reflexivity end; rewrite HK; reflexivity|]). destruct HI.
Qed.
Print Assumptions C70_empty_input_refuted.

Example C70_example : secret (ex_key (repeat x01 16) [x01]) (repeat x01 16) /\
  exists t, alg_compute_tag toy (alg 15) (ex_key (repeat x01 16) [x01]) (bs "data") = Ok t /\ length t = 8%nat.
Proof. split; [vm_compute; reflexivity|]. eexists. split; [vm_compute; reflexivity|]. reflexivity. Qed.

(** C40. *)
Theorem C40_nonce_partial : forall c,
  (* the IV header, if there is one *)
  (forall iv, header c IV (VBytes iv) -> get_nonce c = Ok (VBytes iv)) /\
  (* neither an IV nor a base IV *)
  (forall k, no_header c IV -> ckey c = Some k -> prop_get k PBaseIV = Ok (VBytes []) ->
     get_nonce c = Err CoseException) /\
  (* base IV and partial IV *)
  (forall k base piv, no_header c IV -> ckey c = Some k -> prop_get k PBaseIV = Ok (VBytes base) -> base <> [] ->
     header c PartialIV (VBytes piv) -> (length piv <= length base)%nat ->
     let nonce := xor (left_pad (length base) piv) base in
     hd x01 nonce <> x00 -> get_nonce c = Ok (VBytes nonce)).
Proof.
  intros c. split; [|split].
  - intros iv H. apply nonce_iv; [assumption|discriminate].
  - intros. eapply nonce_missing; eassumption.
  - intros. eapply nonce_xor; eassumption.
Qed.
Print Assumptions C40_nonce_partial.

(** Missing from C40: leading zero bytes of the combination are lost, so the nonce is
    shorter than the base IV; *)
Theorem C40_leading_zero_refuted : forall c k a base piv, no_header c IV -> ckey c = Some k ->
  prop_get k PBaseIV = Ok (VBytes (a :: base)) -> header c PartialIV (VBytes (a :: piv)) ->
  length piv = length base ->
  exists n, get_nonce c = Ok (VBytes n) /\ (length n < length (a :: base))%nat.
Proof.
  intros c k a base piv H1 H2 H3 H4 HL.
  destruct (nonce_exact c k (a :: base) (a :: piv) H1 H2 H3 ltac:(discriminate) H4) as (n & HG & HO & HD).
  exists n. split; [exact HG|]. rewrite <- (min_be_of_be n HD), min_be_length, HO.
  rewrite <- of_be_xor by (cbn [length]; congruence). cbn [xor].
  replace (byte_xor a a) with x00 by (unfold byte_xor; rewrite N.lxor_nilpotent; reflexivity).
  rewrite of_be_cons_zero. cbn [length]. apply Nat.lt_succ_r.
  eapply Nat.le_trans; [apply min_be_minimal|]. rewrite xor_length. apply Nat.le_min_r.
Qed.
Print Assumptions C40_leading_zero_refuted.

(** without a partial IV, or without a key, the error is not CoseException. *)
Theorem C40_missing_refuted : forall c, no_header c IV ->
  (forall k b base, ckey c = Some k -> prop_get k PBaseIV = Ok (VBytes (b :: base)) -> no_header c PartialIV ->
     get_nonce c = Err TypeError) /\
  (ckey c = None -> get_nonce c = Err AttributeError).
Proof.
  intros c H. split.
  - intros k b base HK HB HP. unfold get_nonce. rewrite (get_attr_none _ _ H). cbn [bind is_none]. rewrite HK, HB. cbn [bind].
    change (veqb (VBytes (b :: base)) (VBytes [])) with false. cbv iota. rewrite (get_attr_none _ _ HP). reflexivity.
  - intros HK. unfold get_nonce. rewrite (get_attr_none _ _ H). cbn [bind is_none]. rewrite HK. reflexivity.
Qed.
Print Assumptions C40_missing_refuted.

Example C40_example :
  let base := repeat x11 13 in let k := ex_key (repeat x01 16) base in
  let c := ex_core 1 [(VInt 6, VBytes [x01; x02])] k in
  no_header c IV /\ ckey c = Some k /\ prop_get k PBaseIV = Ok (VBytes base) /\
  header c PartialIV (VBytes [x01; x02]) /\ get_nonce c = Ok (VBytes (repeat x11 11 ++ [x10; x13])) /\
  get_nonce (ex_core 1 [(VInt 6, VBytes (x11 :: repeat x00 12))] k) = Ok (VBytes (repeat x11 12)).
Proof.
  cbv zeta. split; [split; vm_compute; reflexivity|]. split; [vm_compute; reflexivity|].
  split; [vm_compute; reflexivity|]. split; [right; split; vm_compute; reflexivity|].
  split; vm_compute; reflexivity.
Qed.

(** C41. *)
Theorem C41_base64 : forall l,
  base64decode (base64encode l) = Ok (VBytes l) /\
  base64decode (to_urlsafe (base64encode l)) = Ok (VBytes l) /\
  base64decode (strip (base64encode l)) = Ok (VBytes l) /\
  base64decode (strip (to_urlsafe (base64encode l))) = Ok (VBytes l).
Proof.
  intros l. split; [apply base64_roundtrip|]. split; [apply base64_urlsafe|]. apply base64_stripped.
Qed.
Print Assumptions C41_base64.

Example C41_example :
  base64encode [xfb; xff; xbf; x00] = bs "+/+/AA==" /\
  strip (to_urlsafe (base64encode [xfb; xff; xbf; x00])) = bs "-_-_AA" /\
  base64decode (bs "-_-_AA") = Ok (VBytes [xfb; xff; xbf; x00]).
Proof. repeat split; vm_compute; reflexivity. Qed.

(** C44. The thumbprint object round-trips, directly and as received after encoding
    in a message; matching is equality with the non-empty stored thumbprint. *)
Theorem C44_roundtrip : forall z n p, In (Cls FAlg z, n) (registered FAlg) ->
  x5t_decode (x5t_encode (X5T (alg z) p)) = Ok (X5T (alg z) p) /\
  (forall tstr, x5t_decode (VList [wire cls_fullname (HMsg tstr) (alg z); p]) = Ok (X5T (alg z) p)).
Proof. exact x5t_roundtrip. Qed.
Print Assumptions C44_roundtrip.

Theorem C44_matches_own : forall X z h n cert cborenc t, In (z, (h, n)) rfc_hashes -> law_hash_len X ->
  x5t_from_certificate X (alg z) cert cborenc = Ok t -> x5t_matches X t cert cborenc = Ok true.
Proof. exact x5t_self_match. Qed.
Print Assumptions C44_matches_own.

Theorem C44_matches_only : forall X t cert cborenc, x5t_matches X t cert cborenc = Ok true ->
  exists c b, (if cborenc then loads cert else Ok cert) = Ok (VBytes c) /\
    alg_compute_hash X (t_alg t) c = Ok b /\ t_print t = VBytes b /\ b <> [].
Proof. exact x5t_match_only. Qed.
Print Assumptions C44_matches_only.

Theorem C44_equal : forall a p b q,
  (x5t_eq (X5T a p) (X5T b q) = true <-> a = b /\ p = q) /\
  (forall z n y n', In (Cls FAlg z, n) (registered FAlg) -> In (Cls FAlg y, n') (registered FAlg) ->
     (x5t_eq (X5T (alg z) p) (X5T (alg y) q) = true <-> z = y /\ p = q)).
Proof. exact x5t_equal. Qed.
Print Assumptions C44_equal.

Example C44_example :
  (exists t, x5t_from_certificate toy (alg (-16)) (VBytes (bs "certificate")) false = Ok t /\
    x5t_matches toy t (VBytes (bs "certificate")) false = Ok true /\
    x5t_matches toy t (VBytes (bs "other")) false = Ok false /\
    x5t_matches toy t (VBytes (x45 :: bs "other")) true = Ok false) /\
  x5t_matches toy (X5T (alg (-16)) (VBytes [])) (VBytes (bs "other")) false = Ok false /\
  x5t_eq (X5T (alg (-16)) (VBytes (bs "print"))) (X5T (alg (-15)) (VBytes (bs "print"))) = false.
Proof.
  split; [|split; vm_compute; reflexivity].
  eexists. split; [vm_compute; reflexivity|]. repeat split; vm_compute; reflexivity.
Qed.

(** C52. *)
Theorem C52_key_wrap_sizes : forall X z n seed kek b data, In (z, n) rfc_key_wraps -> secret kek b -> length b <> n ->
  alg_key_wrap X seed (alg z) kek data = Err ValueError /\ alg_key_unwrap X (alg z) kek data = Err ValueError.
Proof. exact wrap_refused. Qed.
Print Assumptions C52_key_wrap_sizes.

Theorem C52_key_wrap_output : forall X z n seed kek data w, In (z, n) rfc_key_wraps ->
  (alg_key_wrap X seed (alg z) kek data = Ok w \/ alg_key_unwrap X (alg z) kek data = Ok w) ->
  exists b, secret kek b /\ length b = n.
Proof. exact wrap_size. Qed.
Print Assumptions C52_key_wrap_output.

Example C52_example :
  is_ok (alg_key_wrap toy 0 (alg (-3)) (ex_key (repeat x01 16) []) (VBytes (repeat x02 16))) = true /\
  alg_key_wrap toy 0 (alg (-3)) (ex_key (repeat x01 24) []) (VBytes (repeat x02 16)) = Err ValueError.
Proof. split; vm_compute; reflexivity. Qed.

(** C53. The primitive gets exactly the secret of the key, the nonce, and the tag length
    of the algorithm. *)
Theorem C53_content_encryption_partial : forall X k nonce d ad b, secret k b ->
  (forall z n, In (z, n) rfc_gcms ->
     alg_encrypt X (alg z) k (VBytes nonce) (VBytes d) ad = x_gcm_enc X b nonce d ad /\
     alg_decrypt X (alg z) k (VBytes nonce) (VBytes d) ad = x_gcm_dec X b nonce d ad) /\
  (forall z n t, In (z, (n, t)) rfc_ccms ->
     alg_encrypt X (alg z) k (VBytes nonce) (VBytes d) ad = x_ccm_enc X t b nonce d ad /\
     alg_decrypt X (alg z) k (VBytes nonce) (VBytes d) ad = x_ccm_dec X t b nonce d ad).
Proof.
  intros X k nonce d ad b HS. split; intros.
  - eapply gcm_calls; eassumption.
  - eapply ccm_calls; eassumption.
Qed.
Print Assumptions C53_content_encryption_partial.

(** Missing from C53: A128GCM encrypts a message with a 32-byte key, i.e. as AES-256. *)
Theorem C53_key_size_refuted : exists c k, ckey c = Some k /\ header c Algorithm (alg 1) /\
  In (1%Z, 16%nat) rfc_gcms /\ secret k (repeat x01 32) /\
  forall X, exists ad, enc_encrypt X "Encrypt0" c = x_gcm_enc X (repeat x01 32) (bs "nonce") (bs "hello") ad.
Proof.
  exists (ex_core 1 [(VStr (bs "IV"), VBytes (bs "nonce"))] (ex_key (repeat x01 32) [])), (ex_key (repeat x01 32) []).
  split; [vm_compute; reflexivity|]. split; [left; split; vm_compute; reflexivity|].
  split; [left; reflexivity|]. split; [vm_compute; reflexivity|].
  intros X. eexists. lazy. reflexivity.
Qed.
Print Assumptions C53_key_size_refuted.

Example C53_example : is_ok (enc_encrypt toy "Encrypt0"
  (ex_core 10 [(VStr (bs "IV"), VBytes (bs "nonce"))] (ex_key (repeat x01 16) []))) = true.
Proof. vm_compute. reflexivity. Qed.

(** C54. With a key on the algorithm's own curve, signing and verifying use that curve
    with the key's private value and coordinates. *)
Theorem C54_ecdsa_partial : forall X z c h seed k data, In (z, c, h) ecdsa_curves ->
  param k EC2KpCurve = Some (VClass (Cls FCrv c)) ->
  (forall d, prop_get k PD = Ok (VBytes d) -> d <> [] ->
     alg_sign X seed (alg z) k data = x_ecdsa_sign X c h (of_be d) data) /\
  (forall x y s, prop_get k PX = Ok (VBytes x) -> prop_get k PY = Ok (VBytes y) -> x <> [] -> y <> [] ->
     alg_verify X (alg z) k data (VBytes s) = x_ecdsa_verify X c h (of_be x) (of_be y) data s).
Proof. intros X z c h seed k data HI _. apply ecdsa_calls. assumption. Qed.
Print Assumptions C54_ecdsa_partial.

(** Missing from C54: the key's curve is never looked at; ES256 with a P-384 key signs
    and verifies on P-256. *)
Definition p384_key : key :=
  match ec2_init toy (VStr (bs "P_384")) (VBytes []) (VBytes []) (VBytes (repeat x02 48)) VNone true with
  | Ok k => k | Err _ => Key KEC2 [] [] end.

Theorem C54_curve_refuted : exists k, constructed toy k /\ param k EC2KpCurve = Some (VClass (Cls FCrv 2)) /\
  forall X seed data s,
    alg_sign X seed (alg (-7)) k data = x_ecdsa_sign X 1 SHA256 (of_be (repeat x02 48)) data /\
    exists x y, alg_verify X (alg (-7)) k data (VBytes s) = x_ecdsa_verify X 1 SHA256 x y data s.
Proof.
  exists p384_key. split.
  - assert (H : ec2_init toy (VStr (bs "P_384")) (VBytes []) (VBytes []) (VBytes (repeat x02 48)) VNone true = Ok p384_key)
      by (vm_compute; reflexivity).
    generalize dependent p384_key. intros k H. eapply ConEC2. exact H.
  - split; [vm_compute; reflexivity|]. intros X seed data s. split.
    + apply (ecdsa_calls X (-7) 1 SHA256); [left; reflexivity|vm_compute; reflexivity|discriminate].
    + eexists. eexists. apply (ecdsa_calls X (-7) 1 SHA256 seed);
        [left; reflexivity|vm_compute; reflexivity|vm_compute; reflexivity|discriminate|discriminate].
Qed.
Print Assumptions C54_curve_refuted.

Example C54_example : exists k, ec2_init toy (VStr (bs "P_256")) (VBytes []) (VBytes []) (VBytes (repeat x02 32)) VNone true = Ok k /\
  param k EC2KpCurve = Some (VClass (Cls FCrv 1)) /\ prop_get k PD = Ok (VBytes (repeat x02 32)) /\
  is_ok (alg_sign toy 0 (alg (-7)) k (bs "data")) = true.
Proof.
  eexists. split; [vm_compute; reflexivity|]. split; [vm_compute; reflexivity|].
  split; vm_compute; reflexivity.
Qed.

(** C68. Two or more certificates: the first is the end entity, the others are the
    intermediates. *)
Theorem C68_chain_partial : forall a b l,
  chain_args (certs_init (VList (a :: b :: l))) = Ok (a, VList (b :: l)).
Proof. reflexivity. Qed.
Print Assumptions C68_chain_partial.

(** Missing from C68: a chain of one certificate hands its first byte, a number, to the
    validator as the certificate, and the other bytes as the intermediates. *)
Theorem C68_single_certificate_refuted : forall b cert,
  chain_args (certs_init (VList [VBytes (b :: cert)])) = Ok (VInt (Z.of_N (b2N b)), VBytes cert).
Proof. reflexivity. Qed.
Print Assumptions C68_single_certificate_refuted.

(** C69. *)
Theorem C69_hashes_partial : forall X z h n data, In (z, (h, n)) rfc_hashes -> law_hash_len X ->
  exists t rest, alg_compute_hash X (alg z) data = Ok t /\ length t = n /\ x_hash X h data = t ++ rest.
Proof. exact hash_calls. Qed.
Print Assumptions C69_hashes_partial.

(** Missing from C69: SHAKE128 and SHAKE256 always raise. *)
Theorem C69_shake_refuted : forall X data,
  alg_compute_hash X (alg (-18)) data = Err TypeError /\ alg_compute_hash X (alg (-45)) data = Err TypeError.
Proof. intros X data. split; reflexivity. Qed.
Print Assumptions C69_shake_refuted.

Example C69_example : exists t, alg_compute_hash toy (alg (-15)) (bs "data") = Ok t /\ length t = 8%nat.
Proof. eexists. split; [vm_compute; reflexivity|]. reflexivity. Qed.
