(** C122: which parameters of a key matter. *)
From Coq Require Import NArith ZArith Bool String.
From Coq Require Import Init.Byte List.
From Verif Require Import Bytes Value Cbor Registry Crypto Keys Algorithms Headers Messages Recipients Toy SpecAlg SpecIana SpecMsg SpecMatters.
From Verif Require Import BytesProofs ValueProofs PropHdr PropMsg PropRcpt PropAccept.
Import ListNotations.
Local Open Scope result_scope.

Lemma alike_get : forall ps k k' p, alike ps k k' -> In p (PAlg :: PKeyOps :: ps) -> prop_get k p = prop_get k' p.
Proof. intros ps k k' p [_ H] HI. rewrite Forall_forall in H. auto. Qed.

Lemma alike_verify : forall ps k k' c a ops, alike ps k k' -> key_verify k c a ops = key_verify k' c a ops.
Proof.
  intros ps k k' c a ops H. pose proof (alike_get _ _ _ PAlg H ltac:(left; reflexivity)) as HA. pose proof (alike_get _ _ _ PKeyOps H ltac:(right; left; reflexivity)) as HO.
  destruct H as [HC _]. cbn [prop_get] in HA, HO. injection HA as HA. injection HO as HO. unfold key_verify. rewrite HC, HA, HO. reflexivity.
Qed.

Ltac attrs H := unfold rsa_private_numbers, rsa_public_numbers, attr_int, attr_hex, attr_bytes, aes_key, kw_key, ed_curve, attr_bytes;
  repeat match goal with |- context [prop_get ?k ?p] => match type of H with alike _ k _ => rewrite (alike_get _ _ _ p H) by (cbn; tauto) end end.

(** ** Signatures *)

Lemma verification_alike : forall ps k k' c a op, alike ps k k' ->
  (key_verification (with_key c (Some k)) a op = Ok k /\ key_verification (with_key c (Some k')) a op = Ok k') \/
  (exists e, key_verification (with_key c (Some k)) a op = Err e /\ key_verification (with_key c (Some k')) a op = Err e).
Proof.
  intros ps k k' c a op H. unfold key_verification. cbn [ckey with_key]. pose proof (alike_verify _ _ _ (k_cls k) a [op] H) as HV. pose proof (proj1 H) as HC. rewrite <- HC.
  destruct (k_cls k); try (right; eexists; split; reflexivity); rewrite <- HV; destruct (key_verify k _ a [op]) as [[]|e]; cbn [bind]; eauto.
Qed.

Lemma alg_verify_alike : forall X a k k' d s, alike public_part k k' -> alg_verify X a k d s = alg_verify X a k' d s.
Proof. intros X a k k' d s H. unfold alg_verify. destruct (alg_kind a) as [[]|]; try reflexivity; attrs H; reflexivity. Qed.

Lemma alg_sign_alike : forall X n a k k' d, alike signing_part k k' -> alg_sign X n a k d = alg_sign X n a k' d.
Proof. intros X n a k k' d H. unfold alg_sign. destruct (alg_kind a) as [[]|]; try reflexivity; attrs H; reflexivity. Qed.

Lemma verify_signature_alike : forall X k k' c st s, alike public_part k k' -> verify_signature X (with_key c (Some k)) st s = verify_signature X (with_key c (Some k')) st s.
Proof.
  intros X k k' c st s H. unfold verify_signature. change (get_attr (with_key c (Some k))) with (get_attr c). change (get_attr (with_key c (Some k'))) with (get_attr c). destruct (get_attr c Algorithm) as [a|e]; cbn [bind]; [|reflexivity].
  destruct (verification_alike _ _ _ c a VerifyOp H) as [[E E']|(e & E & E')]; rewrite E, E'; cbn [bind]; [|reflexivity]. destruct (has_sign a); cbn [bind]; [|reflexivity]. destruct st; cbn [bind]; [|reflexivity]. apply alg_verify_alike. exact H.
Qed.

Lemma compute_signature_alike : forall X n k k' c st, alike signing_part k k' -> compute_signature X n (with_key c (Some k)) st = compute_signature X n (with_key c (Some k')) st.
Proof.
  intros X n k k' c st H. unfold compute_signature. change (get_attr (with_key c (Some k))) with (get_attr c). change (get_attr (with_key c (Some k'))) with (get_attr c). destruct (get_attr c Algorithm) as [a|e]; cbn [bind]; [|reflexivity].
  destruct (verification_alike _ _ _ c a SignOp H) as [[E E']|(e & E & E')]; rewrite E, E'; cbn [bind]; [|reflexivity]. destruct (has_sign a); cbn [bind]; [|reflexivity]. destruct st; cbn [bind]; [|reflexivity]. apply alg_sign_alike. exact H.
Qed.

(** Verifying a signature depends on the public part of the key alone. *)
Theorem C122_verify : forall X k k' c s d, alike public_part k k' -> sign1_verify X (Sign1 (with_key c (Some k)) s) d = sign1_verify X (Sign1 (with_key c (Some k')) s) d.
Proof. intros X k k' c s d H. exact (verify_signature_alike X k k' c (sign1_structure c d) s H). Qed.
Print Assumptions C122_verify.

Theorem C122_verify_signer : forall X k k' m c d, alike public_part k k' -> signer_verify X m (with_key c (Some k)) d = signer_verify X m (with_key c (Some k')) d.
Proof. intros X k k' m c d H. exact (verify_signature_alike X k k' c (signer_structure m c d) (vopt (payload c)) H). Qed.
Print Assumptions C122_verify_signer.

(** What is sent by a signer depends on what signing needs alone. *)
Theorem C122_sign : forall X n k k' c s t g d, alike signing_part k k' ->
  sign1_encode X n (Sign1 (with_key c (Some k)) s) t g d = sign1_encode X n (Sign1 (with_key c (Some k')) s) t g d.
Proof.
  intros X n k k' c s t g d H. unfold sign1_encode. cbn [s1_core s1_sig]. change (phdr_encoded (with_key c (Some k'))) with (phdr_encoded (with_key c (Some k))). destruct (phdr_encoded _); cbn [bind]; [|reflexivity].
  rewrite (compute_signature_alike X n k k' c (sign1_structure (with_key c (Some k)) d) H). reflexivity.
Qed.
Print Assumptions C122_sign.

Theorem C122_sign_signer : forall X n k k' m c d, alike signing_part k k' -> signer_encode X n m (with_key c (Some k)) d = signer_encode X n m (with_key c (Some k')) d.
Proof.
  intros X n k k' m c d H. unfold signer_encode. rewrite (compute_signature_alike X n k k' c (signer_structure m (with_key c (Some k)) d) H). reflexivity.
Qed.
Print Assumptions C122_sign_signer.

(** ** MACs and encryption *)

Lemma tag_alike : forall X a k k' d, alike secret k k' -> alg_compute_tag X a k d = alg_compute_tag X a k' d.
Proof. intros X a k k' d H. unfold alg_compute_tag. destruct (alg_kind a) as [[]|]; try reflexivity; attrs H; reflexivity. Qed.

Lemma mac_verify_alike : forall X ctx k k' c t, alike secret k k' -> mac_verify X ctx (with_key c (Some k)) t = mac_verify X ctx (with_key c (Some k')) t.
Proof.
  intros X ctx k k' c t H. unfold mac_verify, alg_verify_tag. cbn [ckey with_key]. change (get_attr (with_key c (Some k))) with (get_attr c). change (get_attr (with_key c (Some k'))) with (get_attr c). destruct (get_attr c Algorithm) as [a|e]; cbn [bind]; [|reflexivity].
  rewrite (alike_verify _ _ _ KSym a [MacVerifyOp] H). destruct (key_verify _ _ _ _); cbn [bind]; [|reflexivity]. destruct (has_mac a); cbn [bind]; [|reflexivity]. change (mac_structure ctx (with_key c (Some k))) with (mac_structure ctx c). change (mac_structure ctx (with_key c (Some k'))) with (mac_structure ctx c).
  destruct (mac_structure ctx c); cbn [bind]; [|reflexivity]. rewrite (tag_alike X a k k' _ H). reflexivity.
Qed.

Lemma mac_compute_alike : forall X ctx k k' c, alike secret k k' -> mac_compute X ctx (with_key c (Some k)) = mac_compute X ctx (with_key c (Some k')).
Proof.
  intros X ctx k k' c H. unfold mac_compute. cbn [ckey with_key]. change (get_attr (with_key c (Some k))) with (get_attr c). change (get_attr (with_key c (Some k'))) with (get_attr c). destruct (get_attr c Algorithm) as [a|e]; cbn [bind]; [|reflexivity].
  rewrite (alike_verify _ _ _ KSym a [MacCreateOp] H). destruct (key_verify _ _ _ _); cbn [bind]; [|reflexivity]. destruct (has_mac a); cbn [bind]; [|reflexivity]. change (mac_structure ctx (with_key c (Some k))) with (mac_structure ctx c). change (mac_structure ctx (with_key c (Some k'))) with (mac_structure ctx c).
  destruct (mac_structure ctx c); cbn [bind]; [|reflexivity]. apply tag_alike. exact H.
Qed.

Theorem C122_mac0 : forall X k k' c t, alike secret k k' ->
  mac0_verify_tag X (Mac0 (with_key c (Some k)) t) = mac0_verify_tag X (Mac0 (with_key c (Some k')) t) /\
  forall tg g, snd (mac0_encode X (Mac0 (with_key c (Some k)) t) tg g) = snd (mac0_encode X (Mac0 (with_key c (Some k')) t) tg g).
Proof.
  intros X k k' c t H. split; [exact (mac_verify_alike X "MAC0" k k' c t H)|]. intros tg g. unfold mac0_encode, mac0_compute_tag. cbn [m0_core m0_tag]. rewrite (mac_compute_alike X "MAC0" k k' c H).
  change (phdr_encoded (with_key c (Some k'))) with (phdr_encoded (with_key c (Some k))). destruct (phdr_encoded _); [|reflexivity]. destruct g; [destruct (mac_compute X "MAC0" (with_key c (Some k')))|]; reflexivity.
Qed.
Print Assumptions C122_mac0.

Theorem C122_mac : forall X k k' c t rs, alike secret k k' -> macm_verify_tag X (MacMsg (with_key c (Some k)) t rs) = macm_verify_tag X (MacMsg (with_key c (Some k')) t rs).
Proof. intros X k k' c t rs H. exact (mac_verify_alike X "MAC" k k' c t H). Qed.
Print Assumptions C122_mac.

Lemma nonce_alike : forall k k' c, alike secret_and_base k k' -> get_nonce (with_key c (Some k)) = get_nonce (with_key c (Some k')).
Proof.
  intros k k' c H. unfold get_nonce. cbn [ckey with_key]. rewrite (alike_get _ _ _ PBaseIV H) by (cbn; tauto). reflexivity.
Qed.

Lemma enc_alike : forall X ctx k k' c, alike secret_and_base k k' ->
  enc_encrypt X ctx (with_key c (Some k)) = enc_encrypt X ctx (with_key c (Some k')) /\ enc_decrypt X ctx (with_key c (Some k)) = enc_decrypt X ctx (with_key c (Some k')).
Proof.
  intros X ctx k k' c H. unfold enc_encrypt, enc_decrypt. cbn [ckey with_key]. rewrite (nonce_alike k k' c H). change (get_attr (with_key c (Some k))) with (get_attr c). change (get_attr (with_key c (Some k'))) with (get_attr c).
  change (enc_structure ctx (with_key c (Some k))) with (enc_structure ctx c). change (enc_structure ctx (with_key c (Some k'))) with (enc_structure ctx c).
  destruct (get_attr c Algorithm) as [a|e]; cbn [bind]; [|split; reflexivity]. rewrite (alike_verify _ _ _ KSym a [EncryptOp] H), (alike_verify _ _ _ KSym a [DecryptOp] H). unfold alg_encrypt, alg_decrypt. destruct (alg_kind a) as [[]|]; try (split; reflexivity); attrs H; split; reflexivity.
Qed.

Theorem C122_enc0 : forall X k k' c, alike secret_and_base k k' ->
  enc0_decrypt X (with_key c (Some k)) = enc0_decrypt X (with_key c (Some k')) /\ forall t g, enc0_encode X (with_key c (Some k)) t g = enc0_encode X (with_key c (Some k')) t g.
Proof.
  intros X k k' c H. destruct (enc_alike X "Encrypt0" k k' c H) as [HE HD]. split; [exact HD|]. intros t g. unfold enc0_encode. rewrite HE. reflexivity.
Qed.
Print Assumptions C122_enc0.

(** ** Recipients *)

Lemma unwrap_alike : forall X a k k' d, alike receiving_part k k' -> alg_key_unwrap X a k d = alg_key_unwrap X a k' d.
Proof. intros X a k k' d H. unfold alg_key_unwrap. destruct (alg_kind a) as [[]|]; try reflexivity; attrs H; reflexivity. Qed.
Lemma wrap_alike : forall X n a k k' d, alike sending_part k k' -> alg_key_wrap X n a k d = alg_key_wrap X n a k' d.
Proof. intros X n a k k' d H. unfold alg_key_wrap. destruct (alg_kind a) as [[]|]; try reflexivity; attrs H; reflexivity. Qed.

Lemma kek_alike : forall X ps k k' c t pk a, alike ps k k' -> In PD ps -> agree_kek X (with_key c (Some k)) t pk (Some k) a = agree_kek X (with_key c (Some k')) t pk (Some k') a.
Proof.
  intros X ps k k' c t pk a H HI. unfold agree_kek, derive_kek, ecdh, attr_hex. cbn [bind]. rewrite (alike_get _ _ _ PD H) by (right; right; exact HI). reflexivity.
Qed.

(** What is decrypted for a recipient depends on what decrypting needs alone. *)
Theorem C122_recipient : forall X k k' c rs r, alike receiving_part k k' ->
  snd (encm_decrypt X (EncMsg c rs) (holding r k)) = snd (encm_decrypt X (EncMsg c rs) (holding r k')).
Proof.
  intros X k k' c rs [id rc c0 x s] H. unfold encm_decrypt, holding. cbn [e_core e_rcpts r_id r_class r_core r_ctx r_subs]. destruct (get_attr c Algorithm) as [t|e]; [|reflexivity].
  destruct (negb _); [reflexivity|]. destruct (verify_recipients rs) as [[]|]; [|reflexivity]. destruct (has_class RDirect rs); [reflexivity|]. destruct (_ || _); [|reflexivity].
  assert (HE : compute_cek X (Rcpt id rc (with_key c0 (Some k)) x s) t true = compute_cek X (Rcpt id rc (with_key c0 (Some k')) x s) t true); [|rewrite HE; destruct (compute_cek X (Rcpt id rc (with_key c0 (Some k')) x s) t true); reflexivity].
  unfold compute_cek. cbn [r_class r_core]. destruct rc; [reflexivity| | |].
  - cbn [rcpt_decrypt]. cbn [ckey with_key]. change (get_attr (with_key c0 (Some k))) with (get_attr c0). change (get_attr (with_key c0 (Some k'))) with (get_attr c0). destruct (get_attr c0 Algorithm) as [a|]; cbn [bind]; [|reflexivity].
    rewrite (alike_get _ _ _ PK H) by (cbn; tauto). rewrite (alike_verify _ _ _ KRSA a [UnwrapOp; DecryptOp] H), (unwrap_alike X a k k' _ H). reflexivity.
  - unfold agree_compute_cek. cbn [ckey with_key bind]. change (get_attr (with_key c0 (Some k))) with (get_attr c0). change (get_attr (with_key c0 (Some k'))) with (get_attr c0).
    destruct (get_attr c0 Algorithm) as [a|]; cbn [bind]; [|reflexivity]. rewrite (alike_verify _ _ _ KEC2 a [DeriveKeyOp; DeriveBitsOp] H).
    destruct (alg_in a (ss_hkdf ++ es_hkdf)) as [[]|]; cbn [bind negb]; try reflexivity. destruct (alg_in a ss_hkdf) as [[]|]; cbn [bind]; try reflexivity; match goal with |- context [get_attr c0 ?y] => destruct (get_attr c0 y) as [p|] end; cbn [bind]; try reflexivity.
    all: destruct (is_none p); [reflexivity|]; destruct (peer p) as [pk|]; cbn [bind]; [|reflexivity]; destruct (key_verify pk _ _ _); cbn [bind]; [|reflexivity]; destruct (key_verify k' _ _ _); cbn [bind]; [|reflexivity].
    all: rewrite (kek_alike X receiving_part k k' c0 t p a) by (exact H || (cbn; tauto)); reflexivity.
  - cbn [rcpt_decrypt]. unfold kakw_decrypt. cbn [ckey with_key]. change (get_attr (with_key c0 (Some k))) with (get_attr c0). change (get_attr (with_key c0 (Some k'))) with (get_attr c0). destruct (get_attr c0 Algorithm) as [a|]; cbn [bind]; [|reflexivity].
    destruct (alg_in a es_kw) as [b|]; cbn [bind]; [|reflexivity].
    match goal with |- context [bind (if b then ?y else ?z) _] => destruct (if b then y else z) as [p|] end; cbn [bind]; [|reflexivity]. destruct (get_key_wrap_func a) as [w|]; cbn [bind]; [|reflexivity].
    rewrite (kek_alike X receiving_part k k' c0 w p a) by (exact H || (cbn; tauto)). reflexivity.
Qed.
Print Assumptions C122_recipient.

Lemma kakw_alike : forall X n k k' c, alike sending_part k k' -> snd (kakw_encrypt X n (with_key c (Some k))) = snd (kakw_encrypt X n (with_key c (Some k'))) /\
  fst (kakw_encrypt X n (with_key c (Some k))) = with_key c (Some k) /\ fst (kakw_encrypt X n (with_key c (Some k'))) = with_key c (Some k').
Proof.
  intros X n k k' c H. unfold kakw_encrypt. cbn [ckey with_key local]. destruct (is_none _); [repeat split|]. change (get_attr (with_key c (Some k))) with (get_attr c). change (get_attr (with_key c (Some k'))) with (get_attr c).
  destruct (get_attr c Algorithm) as [a|]; [|repeat split]. destruct (is_none a); [repeat split|]. cbn [snd fst bind]. split; [|split; reflexivity]. destruct (get_key_wrap_func a); cbn [bind]; [|reflexivity].
  rewrite (kek_alike X sending_part k k') by (exact H || (cbn; tauto)). reflexivity.
Qed.

(** What is sent for a recipient depends on what sending needs alone. *)
Theorem C122_sent : forall X n k k' r, alike sending_part k k' -> snd (rcpt_encode X n (holding r k)) = snd (rcpt_encode X n (holding r k')).
Proof.
  intros X n k k' [id rc c x s] H. unfold holding. cbn [r_id r_class r_core r_ctx r_subs]. cbn [rcpt_encode].
  change (phdr_encoded (with_key c (Some k))) with (phdr_encoded c). change (phdr_encoded (with_key c (Some k'))) with (phdr_encoded c). change (get_attr (with_key c (Some k))) with (get_attr c). change (get_attr (with_key c (Some k'))) with (get_attr c). destruct rc.
  - reflexivity.
  - assert (HK : kw_encrypt X n (with_key c (Some k)) s = kw_encrypt X n (with_key c (Some k')) s).
    { unfold kw_encrypt, kw_kek_encrypt. cbn [ckey with_key]. change (get_attr (with_key c (Some k))) with (get_attr c). change (get_attr (with_key c (Some k'))) with (get_attr c). destruct (get_attr c Algorithm) as [a|]; cbn [bind]; [|reflexivity].
      rewrite (alike_get _ _ _ PK H) by (cbn; tauto). rewrite (alike_verify _ _ _ KRSA a [WrapOp; EncryptOp] H), (wrap_alike X n a k k' _ H). reflexivity. }
    rewrite HK. destruct (phdr_encoded c); cbn [bind]; [|reflexivity]. destruct (kw_encrypt X n (with_key c (Some k')) s); cbn [bind]; [|reflexivity].
    destruct s as [|r0 s]; [reflexivity|]. match goal with |- context [snd (match ?z with _ => _ end)] => destruct z as [[? ?] [?|?]] end; reflexivity.
  - cbn [local with_key ckey uhdr]. destruct (get_attr c Algorithm) as [a|]; cbn [bind]; [|reflexivity]. destruct (is_none a); [reflexivity|]. destruct (is_none _); [reflexivity|]. cbn [bind].
    change (phdr_encoded (with_key c (Some k))) with (phdr_encoded c). change (phdr_encoded (with_key c (Some k'))) with (phdr_encoded c). change (get_attr (with_key c (Some k))) with (get_attr c). change (get_attr (with_key c (Some k'))) with (get_attr c).
    match goal with |- snd (match ?z with _ => _ end) = _ => destruct z end; [|reflexivity].
    destruct s as [|r0 s]; [reflexivity|]. match goal with |- context [snd (match ?z with _ => _ end)] => destruct z as [[? ?] [?|?]] end; reflexivity.
  - destruct (phdr_encoded c) as [ph|]; cbn [bind]; [|reflexivity]. destruct (get_attr c Algorithm) as [a|]; cbn [bind]; [|reflexivity]. destruct (get_key_wrap_func a); cbn [bind]; [|reflexivity].
    destruct (kakw_alike X n k k' c H) as (HS & HF & HF'). destruct (kakw_encrypt X n (with_key c (Some k))) as [c1 y1]. destruct (kakw_encrypt X n (with_key c (Some k'))) as [c2 y2]. cbn [fst snd] in *. subst c1 c2 y1. destruct y2; [|reflexivity].
    destruct s as [|r0 s]; [reflexivity|]. match goal with |- context [snd (match ?z with _ => _ end)] => destruct z as [[? ?] [?|?]] end; reflexivity.
Qed.
Print Assumptions C122_sent.

Section Peer.
Context (X : crypto) (k k' : key) (lo : dict) (HK : alike peer_part k k').
Let L := dset lo StaticKey (kval k).
Let L' := dset lo StaticKey (kval k').

Lemma local_static : dget_or L StaticKey VNone = kval k /\ dget_or L' StaticKey VNone = kval k'.
Proof. unfold dget_or, L, L'. rewrite !dget_dset_same by reflexivity. auto. Qed.

Lemma kdf_local : forall c t, get_kdf_context (with_local c L) t = get_kdf_context (with_local c L') t.
Proof.
  intros c t. unfold get_kdf_context. change (get_attr (with_local c L)) with (get_attr c). change (get_attr (with_local c L')) with (get_attr c). cbn [local with_local phdr].
  replace (dget_or L SuppPubOther (VBytes [])) with (dget_or L' SuppPubOther (VBytes [])); [replace (dget_or L SuppPrivOther (VBytes [])) with (dget_or L' SuppPrivOther (VBytes [])); [reflexivity|]|].
  all: unfold dget_or, L, L'; rewrite !dget_dset_other by reflexivity; reflexivity.
Qed.

Lemma kek_peer : forall c t lk a, agree_kek X (with_local c L) t (kval k) lk a = agree_kek X (with_local c L') t (kval k') lk a.
Proof.
  intros c t lk a. unfold agree_kek. rewrite (kdf_local c t). destruct (kex_hash a); cbn [bind]; [|reflexivity]. unfold peer, kval, as_key. cbn [bind]. destruct k as [kc ks ke] eqn:E, k' as [kc' ks' ke'] eqn:E'. cbn [k_cls k_store k_extra].
  rewrite <- E, <- E' in *. rewrite (alike_get _ _ _ PCrv HK) by (cbn; tauto). destruct (prop_get k' PCrv); cbn [bind]; [|reflexivity]. destruct (get_kdf_context _ _); cbn [bind]; [|reflexivity]. destruct lk; cbn [bind]; [|reflexivity].
  unfold derive_kek, ecdh, attr_hex. rewrite (alike_get _ _ _ PX HK), (alike_get _ _ _ PY HK) by (cbn; tauto). reflexivity.
Qed.

Lemma setup_peer : forall n c, exists d r, setup_ephemeral X n (with_local c L) (kval k) = (with_local d L, r) /\ setup_ephemeral X n (with_local c L') (kval k') = (with_local d L', r).
Proof.
  intros n c. unfold setup_ephemeral, peer, kval, as_key. cbn [bind]. destruct k as [kc ks ke] eqn:E, k' as [kc' ks' ke'] eqn:E'. cbn [k_cls k_store k_extra]. rewrite <- E, <- E' in *. rewrite (alike_get _ _ _ PCrv HK) by (cbn; tauto).
  destruct (prop_get k' PCrv) as [crv|e]; cbn [bind]; [|exists c, (Err e); split; reflexivity]. destruct (ec2_generate X n crv VNone) as [g|e]; [|exists c, (Err e); split; reflexivity].
  change (get_attr (with_key (with_local c L) (Some g))) with (get_attr c). change (get_attr (with_key (with_local c L') (Some g))) with (get_attr c). destruct (get_attr c EphemeralKey) as [v|e]; [|exists (with_key c (Some g)), (Err e); split; reflexivity].
  destruct (negb (is_none v)); [exists (with_key c (Some g)), (Err CoseException); split; reflexivity|]. destruct (dmem _ _); [|exists (with_key c (Some g)), (Err KeyError); split; reflexivity].
  eexists (with_uhdr (with_key c (Some g)) _), (Ok tt). split; reflexivity.
Qed.

Lemma kakw_peer : forall n c, exists d r, kakw_encrypt X n (with_local c L) = (with_local d L, r) /\ kakw_encrypt X n (with_local c L') = (with_local d L', r).
Proof.
  intros n c. unfold kakw_encrypt. cbn [local with_local]. destruct local_static as [-> ->]. cbn [is_none kval]. change (get_attr (with_local c L)) with (get_attr c). change (get_attr (with_local c L')) with (get_attr c).
  destruct (get_attr c Algorithm) as [a|e]; [|exists c, (Err e); split; reflexivity]. destruct (is_none a); [exists c, (Err CoseException); split; reflexivity|]. cbn [ckey with_local].
  assert (HX : exists d r, (match ckey c with Some _ => (with_local c L, Ok tt) | None => match alg_in a es_kw with Err e => (with_local c L, Err e) | Ok true => setup_ephemeral X n (with_local c L) (kval k) | Ok false => (with_local c L, Err CoseException) end end) = (with_local d L, r) /\
    (match ckey c with Some _ => (with_local c L', Ok tt) | None => match alg_in a es_kw with Err e => (with_local c L', Err e) | Ok true => setup_ephemeral X n (with_local c L') (kval k') | Ok false => (with_local c L', Err CoseException) end end) = (with_local d L', r)).
  { destruct (ckey c); [exists c, (Ok tt); split; reflexivity|]. destruct (alg_in a es_kw) as [[]|e]; [apply setup_peer|exists c, (Err CoseException); split; reflexivity|exists c, (Err e); split; reflexivity]. }
  destruct HX as (d & r & H1 & H2). fold (kval k). fold (kval k'). rewrite H1, H2. exists d. eexists. split; [reflexivity|]. f_equal. destruct r; cbn [bind]; [|reflexivity].
  change (get_attr (with_local d L)) with (get_attr d). change (get_attr (with_local d L')) with (get_attr d). destruct (get_attr d Algorithm) as [a'|]; cbn [bind]; [|reflexivity]. destruct (get_key_wrap_func a') as [w|]; cbn [bind]; [|reflexivity].
  cbn [ckey with_local payload]. rewrite (kek_peer d w (ckey d) a). reflexivity.
Qed.
End Peer.

(** Of the other side's key only the public part matters to the sender. *)
Theorem C122_peer : forall X n k k' r, alike peer_part k k' -> snd (rcpt_encode X n (addressing r k)) = snd (rcpt_encode X n (addressing r k')).
Proof.
  intros X n k k' [id rc c x s] H. unfold addressing. cbn [r_id r_class r_core r_ctx r_subs]. pose proof (local_static k k' (local c)) as [HL HL']. pose proof (kakw_peer X k k' (local c) H n c) as HW. pose proof (setup_peer X k k' (local c) H n c) as HS.
  set (L := dset (local c) StaticKey (kval k)) in *. set (L' := dset (local c) StaticKey (kval k')) in *. cbn [rcpt_encode].
  change (phdr_encoded (with_local c L)) with (phdr_encoded c). change (phdr_encoded (with_local c L')) with (phdr_encoded c). change (get_attr (with_local c L)) with (get_attr c). change (get_attr (with_local c L')) with (get_attr c). destruct rc.
  - reflexivity.
  - change (kw_encrypt X n (with_local c L) s) with (kw_encrypt X n c s). change (kw_encrypt X n (with_local c L') s) with (kw_encrypt X n c s). destruct (phdr_encoded c); cbn [bind]; [|reflexivity]. destruct (kw_encrypt X n c s); cbn [bind]; [|reflexivity].
    destruct s as [|r0 s]; [reflexivity|]. match goal with |- context [snd (match ?z with _ => _ end)] => destruct z as [[? ?] [?|?]] end; reflexivity.
  - cbn [local with_local]. rewrite HL, HL'. cbn [is_none kval]. destruct (get_attr c Algorithm) as [a|]; cbn [bind]; [|reflexivity]. destruct (is_none a); [reflexivity|]. cbn [bind ckey with_local]. fold (kval k). fold (kval k').
    assert (HX : exists d q, (match ckey c with Some _ => (with_local c L, Ok tt) | None => match alg_in a es_hkdf with Err e => (with_local c L, Err e) | Ok true => setup_ephemeral X n (with_local c L) (kval k) | Ok false => (with_local c L, Err CoseException) end end) = (with_local d L, q) /\
      (match ckey c with Some _ => (with_local c L', Ok tt) | None => match alg_in a es_hkdf with Err e => (with_local c L', Err e) | Ok true => setup_ephemeral X n (with_local c L') (kval k') | Ok false => (with_local c L', Err CoseException) end end) = (with_local d L', q)).
    { destruct (ckey c); [exists c, (Ok tt); split; reflexivity|]. destruct (alg_in a es_hkdf) as [[]|e]; [exact HS|exists c, (Err CoseException); split; reflexivity|exists c, (Err e); split; reflexivity]. }
    destruct HX as (d & q & H1 & H2). rewrite H1, H2. change (phdr_encoded (with_local d L)) with (phdr_encoded d). change (phdr_encoded (with_local d L')) with (phdr_encoded d). change (get_attr (with_local d L)) with (get_attr d). change (get_attr (with_local d L')) with (get_attr d). cbn [uhdr with_local].
    match goal with |- snd (match ?z with _ => _ end) = _ => destruct z end; [|reflexivity]. destruct s as [|r0 s]; [reflexivity|]. match goal with |- context [snd (match ?z with _ => _ end)] => destruct z as [[? ?] [?|?]] end; reflexivity.
  - destruct (phdr_encoded c) as [ph|]; cbn [bind]; [|reflexivity]. destruct (get_attr c Algorithm) as [a|]; cbn [bind]; [|reflexivity]. destruct (get_key_wrap_func a); cbn [bind]; [|reflexivity]. destruct HW as (d & q & H1 & H2). rewrite H1, H2. cbn [uhdr with_local]. destruct q; [|reflexivity].
    destruct s as [|r0 s]; [reflexivity|]. match goal with |- context [snd (match ?z with _ => _ end)] => destruct z as [[? ?] [?|?]] end; reflexivity.
Qed.
Print Assumptions C122_peer.

(** ** Keys that differ in what does not matter *)

Lemma dget_filter : forall (f : pyval * pyval -> bool) d l, (forall e, keyeq l (fst e) = true -> f e = true) -> dget (filter f d) l = dget d l.
Proof.
  intros f d l H. induction d as [|[l0 v0] d IH]; [reflexivity|]. cbn [filter dget]. destruct (keyeq l l0) eqn:E.
  - rewrite (H (l0, v0) E). cbn [dget]. rewrite E. reflexivity.
  - destruct (f (l0, v0)); [cbn [dget]; rewrite E|]; exact IH.
Qed.

Lemma dget_published : forall k l, existsb (keyeq l) private_labels = false -> dget (k_store (published k)) l = dget (k_store k) l.
Proof.
  intros k l H. apply dget_filter. intros [l0 v0] E. cbn [fst] in *. apply negb_true_iff. rewrite <- H. clear H. induction private_labels as [|p ps IH]; [reflexivity|].
  cbn [existsb]. rewrite (keyeq_cong l l0 p E), IH. reflexivity.
Qed.

(** Verifying needs no private key: a key gives the same answer as its public part. *)
Theorem C122_published : forall k, alike public_part k (published k).
Proof.
  intros k. split; [reflexivity|]. unfold public_part. pose proof (dget_published k) as HD.
  assert (HG : forall l d, existsb (keyeq l) private_labels = false -> dget_or (k_store k) l d = dget_or (k_store (published k)) l d) by (intros l d HL; unfold dget_or; rewrite (HD l HL); reflexivity).
  repeat constructor; unfold prop_get; change (k_cls (published k)) with (k_cls k).
  - rewrite HG by reflexivity. reflexivity.
  - rewrite HG by reflexivity. reflexivity.
  - destruct (k_cls k); cbn [crv_prop]; try reflexivity; rewrite HD by reflexivity; reflexivity.
  - destruct (k_cls k); cbn [bytes_prop]; try reflexivity; rewrite HG by reflexivity; reflexivity.
  - destruct (k_cls k); cbn [bytes_prop]; try reflexivity; rewrite HG by reflexivity; reflexivity.
  - destruct (k_cls k); cbn [bytes_prop]; try reflexivity; rewrite HG by reflexivity; reflexivity.
  - destruct (k_cls k); cbn [bytes_prop]; try reflexivity; rewrite HG by reflexivity; reflexivity.
Qed.
Print Assumptions C122_published.

(** A parameter no operation looks at, such as a key identifier or one the library does not
    know, can be added or changed at will. *)
Theorem C122_unused : forall k l v, existsb (keyeq l) used_labels = false -> alike used k (tagged k l v).
Proof.
  intros k l v HL. split; [reflexivity|].
  assert (HD : forall c, In (VClass c) used_labels -> dget (k_store (tagged k l v)) (VClass c) = dget (k_store k) (VClass c)).
  { intros c HI. apply dget_dset_other. rewrite keyeq_sym. destruct (keyeq l (VClass c)) eqn:E; [|reflexivity]. rewrite <- HL. symmetry. apply existsb_exists. exists (VClass c). auto. }
  assert (HG : forall c d, In (VClass c) used_labels -> dget_or (k_store k) (VClass c) d = dget_or (k_store (tagged k l v)) (VClass c) d) by (intros c d HI; unfold dget_or; rewrite (HD c HI); reflexivity).
  unfold used. apply Forall_forall. intros p HI. unfold prop_get. change (k_cls (tagged k l v)) with (k_cls k).
  destruct p; try (exfalso; cbn in HI; repeat (destruct HI as [HI|HI]; [discriminate|]); exact HI); try (rewrite HG by (cbn; tauto); reflexivity);
    destruct (k_cls k); cbn [crv_prop bytes_prop]; try reflexivity; first [rewrite HG by (cbn; tauto); reflexivity|rewrite HD by (cbn; tauto); reflexivity].
Qed.
Print Assumptions C122_unused.

Lemma alike_sub : forall ps qs k k', alike ps k k' -> incl qs ps -> alike qs k k'.
Proof.
  intros ps qs k k' [HC HF] HI. split; [exact HC|]. rewrite Forall_forall in *. intros p [<-|[<-|HP]]; apply HF; cbn; auto.
Qed.

(** So in particular: the key identifier has no say in anything. *)
Theorem C122_kid : forall X k v c s d n t g, sign1_verify X (Sign1 (with_key c (Some k)) s) d = sign1_verify X (Sign1 (with_key c (Some (tagged k (VClass KpKid) v))) s) d /\
  sign1_encode X n (Sign1 (with_key c (Some k)) s) t g d = sign1_encode X n (Sign1 (with_key c (Some (tagged k (VClass KpKid) v))) s) t g d /\
  mac0_verify_tag X (Mac0 (with_key c (Some k)) s) = mac0_verify_tag X (Mac0 (with_key c (Some (tagged k (VClass KpKid) v))) s) /\
  enc0_decrypt X (with_key c (Some k)) = enc0_decrypt X (with_key c (Some (tagged k (VClass KpKid) v))).
Proof.
  intros X k v c s d n t g. pose proof (C122_unused k (VClass KpKid) v eq_refl) as H.
  split; [apply C122_verify; eapply alike_sub; [exact H|]|split; [apply C122_sign; eapply alike_sub; [exact H|]|split; [apply C122_mac0; eapply alike_sub; [exact H|]|apply C122_enc0; eapply alike_sub; [exact H|]]]]; intros p HP; cbn in *; tauto.
Qed.
Print Assumptions C122_kid.

(** ** Examples *)

(** A private key and its public part verify the same signature. *)
Example C122_published_example : exists b c s, sign1_encode toy 0 (Sign1 (with_key (ex_built (alg (-7)) false ex_ec2) (Some ex_ec2)) (VBytes [])) true true VNone = Ok b /\
  decode toy (Some 18%N) true (VBytes b) = Ok (MSign1 (Sign1 c s)) /\ published ex_ec2 <> ex_ec2 /\ dmem (k_store (published ex_ec2)) (VClass EC2KpD) = false /\
  sign1_verify toy (Sign1 (with_key (with_aad c (aad (ex_built (alg (-7)) false ex_ec2))) (Some (published ex_ec2))) s) VNone = Ok true.
Proof.
  do 3 eexists. split; [vm_compute; reflexivity|]. split; [vm_compute; reflexivity|]. split; [discriminate|]. split; [reflexivity|]. vm_compute. reflexivity.
Qed.

(** Two keys that differ in their identifier and a private parameter of the program's own. *)
Example C122_unused_example : exists k, k <> ex_sym /\ alike used ex_sym k /\ dmem (k_store k) (VClass KpKid) = true /\ dmem (k_store k) (VInt (-70000)) = true.
Proof.
  exists (tagged (tagged ex_sym (VClass KpKid) (VBytes (bs "me"))) (VInt (-70000)) (VInt 5)). split; [discriminate|]. split; [|split; reflexivity].
  destruct (C122_unused ex_sym (VClass KpKid) (VBytes (bs "me")) eq_refl) as [H1 F1]. destruct (C122_unused (tagged ex_sym (VClass KpKid) (VBytes (bs "me"))) (VInt (-70000)) (VInt 5) eq_refl) as [H2 F2].
  split; [congruence|]. rewrite Forall_forall in *. intros p HP. rewrite (F1 p HP). auto.
Qed.

(** The secret does matter, and so does what a key may be used for. *)
Example C122_matters_example : exists k k', k_cls k = KSym /\ k_cls k' = KSym /\
  snd (mac0_encode toy (Mac0 (with_key (ex_built (alg 5) false ex_sym) (Some k)) VNone) true true) <> snd (mac0_encode toy (Mac0 (with_key (ex_built (alg 5) false ex_sym) (Some ex_sym)) VNone) true true) /\
  snd (mac0_encode toy (Mac0 (with_key (ex_built (alg 5) false ex_sym) (Some k')) VNone) true true) = Err CoseIllegalKeyOps.
Proof.
  exists (tagged ex_sym (VClass SymKpK) (VBytes (repeat x2b 16))), (tagged ex_sym (VClass KpKeyOps) (VList [VerifyOp])). split; [reflexivity|]. split; [reflexivity|]. split; [vm_compute; discriminate|]. vm_compute. reflexivity.
Qed.

(** A sender that was given the private key of the other side sends what it would have sent with
    the public one. *)
Example C122_peer_example : exists r v, alike peer_part ex_ec2 (published ex_ec2) /\ snd (rcpt_encode toy 3 (addressing r ex_ec2)) = Ok v /\ r_class r = RAgreeKW /\ ckey (r_core r) = None.
Proof.
  exists (Rcpt 0 RAgreeKW (PropRcpt.ex_core [(Algorithm, alg (-29))] (repeat x09 16) None []) (VStr []) []). eexists. split; [|split; [vm_compute; reflexivity|split; reflexivity]].
  eapply alike_sub; [apply C122_published|]. intros p HP. cbn in *. tauto.
Qed.
