(** C95: messages and content keys are produced as RFC 8152 prescribes.

    Vocabulary: SpecCek.v ([sig_made], [aead_sealed], [agreed], [yields], [sealed], [sent]),
    SpecAccept.v ([input], [mac_accepts]). *)
From Coq Require Import NArith ZArith Bool String.
From Coq Require Import Init.Byte List.
From Verif Require Import Bytes Value Cbor Registry Crypto Toy Keys Algorithms Headers Messages Recipients.
From Verif Require Import SpecCrypto SpecStruct SpecAlg SpecIana SpecMsg SpecAccept SpecRcptTrip SpecCek ValueProofs AcceptProofs CekProofs PropHdr PropMsg PropRcpt PropRcptTrip PropAccept.
Import ListNotations.

(** ** Producing *)

(** Sign1: the last element of the array sent is the signature, under the private values of the
    message's key, of the bytes that stand for the message (C08). *)
Theorem C95_sign1 : forall X seed m t d b, sign1_encode X seed m t true (vopt d) = Ok b ->
  exists z k i s p, get_attr (s1_core m) Algorithm = Ok (alg z) /\ ckey (s1_core m) = Some k /\ input (ISign1 (s1_core m) d) = Ok i /\
    sig_made X seed z k i s /\ emit (s1_core m) 18 t [VBytes p; VDict (uhdr (s1_core m)); vopt (payload (s1_core m)); VBytes s] = Ok b.
Proof.
  intros X seed m t d b H. unfold sign1_encode in H. apply bind_ok in H as (p & HP & H). apply bind_ok in H as (items & HI & H). apply bind_ok in HI as (s & HS & HI). injection HI as <-.
  apply signature_made in HS as (z & k & i & HA & HK & HT & HS). exists z, k, i, s, p. repeat (split; [assumption|]). exact H.
Qed.
Print Assumptions C95_sign1.

(** One signer of a COSE_Sign message. *)
Theorem C95_signer : forall X seed m s d v, signer_encode X seed (Some m) s (vopt d) = Ok v ->
  exists z k i sg p, get_attr s Algorithm = Ok (alg z) /\ ckey s = Some k /\ input (ISigner m s d) = Ok i /\
    sig_made X seed z k i sg /\ v = VList [VBytes p; VDict (uhdr s); VBytes sg].
Proof.
  intros X seed m s d v H. unfold signer_encode in H. apply bind_ok in H as (p & HP & H). apply bind_ok in H as (sg & HS & H). injection H as <-.
  apply signature_made in HS as (z & k & i & HA & HK & HT & HS). exists z, k, i, sg, p. repeat (split; [assumption|]). reflexivity.
Qed.
Print Assumptions C95_signer.

(** Mac0 and Mac: what [compute_tag] returns, and for Mac0 what is sent. *)
Theorem C95_mac0 : forall X m t m' b, law_aes_len X -> mac0_encode X m t true = (m', Ok b) ->
  exists z k i g p, get_attr (m0_core m) Algorithm = Ok (alg z) /\ ckey (m0_core m) = Some k /\ input (IMac0 (m0_core m)) = Ok i /\
    mac_accepts X z k i g /\ emit (m0_core m) 17 t [VBytes p; VDict (uhdr (m0_core m)); vopt (payload (m0_core m)); VBytes g] = Ok b.
Proof.
  intros X m t m' b LA H. unfold mac0_encode in H. destruct (phdr_encoded (m0_core m)) as [p|]; [|discriminate]. unfold mac0_compute_tag in H.
  destruct (mac_compute X "MAC0" (m0_core m)) as [g|] eqn:EG; [|discriminate].
  apply tag_made in EG as (z & k & i & HA & HK & HT & HG); [|exact LA]. exists z, k, i, g, p. repeat (split; [assumption|]). injection H as _ H. exact H.
Qed.
Print Assumptions C95_mac0.

Theorem C95_mac : forall X n m n' m' g, law_aes_len X -> macm_compute_tag X n m = ((n', m'), Ok g) ->
  exists z k i, get_attr (mm_core m) Algorithm = Ok (alg z) /\ ckey (mm_core m') = Some k /\ input (IMac (mm_core m)) = Ok i /\
    mac_accepts X z k i g /\ mm_tag m' = VBytes g.
Proof.
  intros X n m n' m' g LA H.
  assert (HS : forall m0, mac_super_compute X n m0 = ((n', m'), Ok g) -> (exists o, mm_core m0 = with_key (mm_core m) o) ->
    exists z k i, get_attr (mm_core m) Algorithm = Ok (alg z) /\ ckey (mm_core m') = Some k /\ input (IMac (mm_core m)) = Ok i /\ mac_accepts X z k i g /\ mm_tag m' = VBytes g).
  { intros m0 H0 [o HO]. unfold mac_super_compute in H0. destruct (mac_compute X "MAC" (mm_core m0)) as [g'|] eqn:EG; [|discriminate]. injection H0 as _ <- ->.
    apply tag_made in EG as (z & k & i & HA & HK & HT & HG); [|exact LA]. rewrite HO in HA, HT. exists z, k, i. cbn [mm_core mm_tag]. auto. }
  unfold macm_compute_tag in H. destruct (get_attr (mm_core m) Algorithm) as [t|]; [|discriminate]. destruct (mm_rcpts m) as [rs|] eqn:ER; [|discriminate].
  destruct (verify_recipients rs); [|discriminate]. destruct (has_class RDirect rs).
  { apply HS in H; [exact H|]. exists (ckey (mm_core m)). destruct m as [[] ? ?]; reflexivity. }
  destruct (has_class RAgree rs).
  { destruct rs as [|r rs]; [discriminate|]. destruct (compute_cek X r t false) as [o|]; [|discriminate]. apply HS in H; [exact H|]. exists o. reflexivity. }
  destruct (_ || _); [|discriminate]. destruct (get_key_length t); [|discriminate]. destruct (cek_loop X _ _ rs) as [[? ?] []]; discriminate.
Qed.
Print Assumptions C95_mac.

(** Encrypt0, and Encrypt with the key that is then left in the message. *)
Theorem C95_enc0 : forall X c t b, enc0_encode X c t true = Ok b ->
  exists z k nonce i pt ct p, get_attr c Algorithm = Ok (alg z) /\ ckey c = Some k /\ get_nonce c = Ok (VBytes nonce) /\ input (IEnc0 c) = Ok i /\
    payload c = Some pt /\ aead_sealed X z k nonce i pt ct /\ emit c 16 t [VBytes p; VDict (uhdr c); VBytes ct] = Ok b.
Proof.
  intros X c t b H. unfold enc0_encode in H. apply bind_ok in H as (p & HP & H). apply bind_ok in H as (body & HB & H). apply bind_ok in HB as (ct & HC & HB). injection HB as <-.
  apply ciphertext_made in HC as (z & k & nonce & i & pt & HA & HK & HN & HT & HPL & HC). exists z, k, nonce, i, pt, ct, p. repeat (split; [assumption|]). exact H.
Qed.
Print Assumptions C95_enc0.

Theorem C95_enc : forall X n m n' m' ct, encm_encrypt X n m = ((n', m'), Ok ct) ->
  exists z k nonce i pt, get_attr (e_core m) Algorithm = Ok (alg z) /\ ckey (e_core m') = Some k /\ get_nonce (e_core m') = Ok (VBytes nonce) /\
    input (IEnc (e_core m)) = Ok i /\ payload (e_core m) = Some pt /\ aead_sealed X z k nonce i pt ct.
Proof.
  intros X n m n' m' ct H.
  assert (HS : forall c o, enc_encrypt X "Encrypt" c = Ok ct -> c = with_key (e_core m) o -> e_core m' = c ->
    exists z k nonce i pt, get_attr (e_core m) Algorithm = Ok (alg z) /\ ckey (e_core m') = Some k /\ get_nonce (e_core m') = Ok (VBytes nonce) /\
    input (IEnc (e_core m)) = Ok i /\ payload (e_core m) = Some pt /\ aead_sealed X z k nonce i pt ct).
  { intros c o HC -> ->. apply ciphertext_made in HC as (z & k & nonce & i & pt & HA & HK & HN & HT & HPL & HC). exists z, k, nonce, i, pt. auto 10. }
  unfold encm_encrypt in H. destruct (bind (get_attr (e_core m) Algorithm) _) as [t|]; [|discriminate]. destruct (has_class RDirect (e_rcpts m)).
  { injection H as _ <- H. apply (HS (e_core m) (ckey (e_core m)) H); [destruct m as [[] ?]; reflexivity|reflexivity]. }
  destruct (has_class RAgree (e_rcpts m)).
  { destruct (e_rcpts m) as [|r rs]; [discriminate|]. destruct (compute_cek X r t false) as [o|]; [|discriminate]. injection H as _ <- H. apply (HS _ o H); reflexivity. }
  destruct (_ || _); [|discriminate]. destruct (get_key_length t); [|discriminate]. destruct (cek_loop X _ _ _) as [[? ?] [kb|]]; [|discriminate].
  destruct (sym_with kb t _) as [k|]; [|discriminate]. injection H as _ <- H. apply (HS _ (Some k) H); reflexivity.
Qed.
Print Assumptions C95_enc.

(** ** Content keys: everything but the salt *)

(** The receiver: unless the recipients use a direct key, the plaintext was opened with the
    content key that recipient [r] yields. *)
Theorem C95_content_key_partial : forall X m r m' pt, encm_decrypt X m r = (m', Ok pt) ->
  (has_class RDirect (e_rcpts m) = true /\ m' = m) \/
  (has_class RDirect (e_rcpts m) = false /\
   exists z k cek, get_attr (e_core m) Algorithm = Ok (alg z) /\ m' = EncMsg (with_key (e_core m) (Some k)) (e_rcpts m) /\
     secret k cek /\ yields X (r_core r) z cek).
Proof. exact encm_key. Qed.
Print Assumptions C95_content_key_partial.

(** A receiver that calls [decrypt] of a recipient gets that content key, too. *)
Theorem C95_recipient_partial : forall X r z b, rcpt_decrypt X r = Ok b -> yields X (r_core r) z b.
Proof. exact rcpt_yields. Qed.
Print Assumptions C95_recipient_partial.

(** The sender: what is sent for each recipient. The recipients are those of the message after
    sending, with the ephemeral keys made on the way. *)
Theorem C95_enc_sent_partial : forall X n m t e n' m' b, encm_encode X n m t e = ((n', m'), Ok b) -> e_rcpts m' <> [] ->
  exists p body vs, emit (e_core m') 96 t [VBytes p; VDict (uhdr (e_core m')); body; VList vs] = Ok b /\ Forall2 (sent X) (e_rcpts m') vs.
Proof. exact enc_sent. Qed.
Print Assumptions C95_enc_sent_partial.

Theorem C95_mac_sent_partial : forall X n m t g n' m' b rs, macm_encode X n m t g = ((n', m'), Ok b) -> mm_rcpts m' = Some rs -> rs <> [] ->
  exists p tag vs, emit (mm_core m') 97 t (VBytes p :: VDict (uhdr (mm_core m')) :: vopt (payload (mm_core m')) :: tag ++ [VList vs]) = Ok b /\
    Forall2 (sent X) rs vs.
Proof. exact mac_sent. Qed.
Print Assumptions C95_mac_sent_partial.

(** The sender, direct key agreement: the key left in the message is the agreed one. *)
Theorem C95_enc_agreement_partial : forall X n m n' m' ct, encm_encrypt X n m = ((n', m'), Ok ct) -> has_class RAgree (e_rcpts m) = true ->
  exists r z k a h pub l cek, e_rcpts m = [r] /\ get_attr (e_core m) Algorithm = Ok (alg z) /\ m' = EncMsg (with_key (e_core m) (Some k)) [r] /\
    get_attr (r_core r) Algorithm = Ok (alg a) /\ In (a, h) ecdh_hkdfs /\ In (z, l) rfc_key_length /\
    dget (local (r_core r)) StaticKey = Some (kval pub) /\ agreed X h (r_core r) pub z l cek /\ secret k cek.
Proof. exact encm_agrees. Qed.
Print Assumptions C95_enc_agreement_partial.

Theorem C95_mac_agreement_partial : forall X n m n' m' g rs, macm_compute_tag X n m = ((n', m'), Ok g) -> mm_rcpts m = Some rs -> has_class RAgree rs = true ->
  exists r z k a h pub l cek, rs = [r] /\ get_attr (mm_core m) Algorithm = Ok (alg z) /\ m' = MacMsg (with_key (mm_core m) (Some k)) (VBytes g) (Some [r]) /\
    get_attr (r_core r) Algorithm = Ok (alg a) /\ In (a, h) ecdh_hkdfs /\ In (z, l) rfc_key_length /\
    dget (local (r_core r)) StaticKey = Some (kval pub) /\ agreed X h (r_core r) pub z l cek /\ secret k cek.
Proof. exact macm_agrees. Qed.
Print Assumptions C95_mac_agreement_partial.

(** Refuted: the salt of the key derivation, which RFC 8152 section 11.1 takes from a header of
    the recipient, has no effect: the content key of every key agreement recipient is the
    same with any salt as without. *)
Theorem C95_salt_refuted : forall X r v t dec, r_class r = RAgree \/ r_class r = RAgreeKW ->
  compute_cek X (r_with r (salted (r_core r) v)) t dec = compute_cek X r t dec.
Proof. exact salted_cek. Qed.
Print Assumptions C95_salt_refuted.

(** ** Messages that meet the hypotheses *)

Example C95_sign1_example : exists b, sign1_encode toy 0 (Sign1 (ex_built (alg (-7)) true ex_ec2) (VBytes [])) true true (vopt None) = Ok b.
Proof. eexists. vm_compute. reflexivity. Qed.
Example C95_signer_example : exists v, signer_encode toy 0 (Some (ex_built (alg (-7)) true ex_ec2)) (ex_built (alg (-7)) true ex_ec2) (vopt None) = Ok v.
Proof. eexists. vm_compute. reflexivity. Qed.
Example C95_mac0_example : law_aes_len toy /\ exists m' b, mac0_encode toy (Mac0 (ex_built (alg 5) false ex_sym) (VBytes [])) true true = (m', Ok b).
Proof. split; [apply toy_aes_len|]. do 2 eexists. vm_compute. reflexivity. Qed.
Example C95_enc0_example : exists b, enc0_encode toy (ex_built (alg 1) true ex_sym) true true = Ok b.
Proof. eexists. vm_compute. reflexivity. Qed.

(** A message for an AES key wrap, an RSA and a key agreement recipient, read by the last two. *)
Example C95_content_key_example : exists n2 m2 b c r0 r1 r2,
  encm_encode toy 3 ex_mixed true true = ((n2, m2), Ok b) /\ length (e_rcpts m2) = 3 /\
  decode toy None true (VBytes b) = Ok (MEnc (EncMsg c [r0; r1; r2])) /\
  (exists m', encm_decrypt toy (EncMsg (with_aad c (aad (e_core ex_mixed))) [r0; equip_rcpt r1 ex_rsa []; r2]) (equip_rcpt r1 ex_rsa []) = (m', Ok (bs "hello"))) /\
  (exists m', encm_decrypt toy (EncMsg (with_aad c (aad (e_core ex_mixed))) [r0; r1; equip_rcpt r2 ex_ec2 []]) (equip_rcpt r2 ex_ec2 []) = (m', Ok (bs "hello"))) /\
  exists cek, rcpt_decrypt toy (equip_rcpt r2 ex_ec2 []) = Ok cek.
Proof.
  do 7 eexists. split; [vm_compute; reflexivity|]. split; [vm_compute; reflexivity|]. split; [vm_compute; reflexivity|].
  split; [eexists; vm_compute; reflexivity|]. split; [eexists; vm_compute; reflexivity|]. eexists. vm_compute. reflexivity.
Qed.

Definition ex_agreeing : rcpt := ex_agree_with 0 RAgree (-26) [(EphemeralKey, kval ex_own_pub)].
Definition ex_mac_agreeing : macmsg := MacMsg (ex_core [(Algorithm, alg 14)] (bs "hello") None []) (VBytes []) (Some [ex_agreeing]).
Example C95_enc_agreement_example : exists n' m' ct, encm_encrypt toy 0 (ex_enc [ex_agreeing]) = ((n', m'), Ok ct) /\
  has_class RAgree (e_rcpts (ex_enc [ex_agreeing])) = true.
Proof. do 3 eexists. split; [vm_compute; reflexivity|reflexivity]. Qed.
Example C95_mac_agreement_example : exists n' m' g n2 m2 b, macm_compute_tag toy 0 ex_mac_agreeing = ((n', m'), Ok g) /\
  has_class RAgree [ex_agreeing] = true /\ macm_encode toy 0 ex_mac_agreeing true true = ((n2, m2), Ok b) /\ mm_rcpts m2 = Some [ex_agreeing].
Proof. do 6 eexists. split; [vm_compute; reflexivity|]. split; [reflexivity|]. split; [vm_compute; reflexivity|reflexivity]. Qed.

Example C95_salt_example : r_class ex_agreeing = RAgree /\ exists k, compute_cek toy ex_agreeing (alg 1) false = Ok (Some k).
Proof. split; [reflexivity|]. eexists. vm_compute. reflexivity. Qed.
