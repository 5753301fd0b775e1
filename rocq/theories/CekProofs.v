(** Proofs of C95. *)
From Coq Require Import NArith ZArith Bool String Lia.
From Coq Require Import Init.Byte List.
From Verif Require Import Bytes BytesProofs Value ValueProofs Cbor CborProofs SpecData DataProofs Registry RegistryProofs Crypto Keys Algorithms Headers Messages Recipients.
From Verif Require Import SpecCrypto SpecStruct StructProofs SpecAlg AlgProofs SpecIana SpecAccept AcceptProofs SpecMsg MsgTrip SpecRcpt RcptProofs SpecRcptTrip RcptTrip RcptTrip2 RcptTrip3 RcptTrip4 RcptTrip5 SpecCek.
From Verif Require KeyProofs CheckProofs.
From Verif Require Import SpecKeys.
Import ListNotations.
Local Open Scope result_scope.

Lemma attr_int_number : forall k p n, attr_int k p = Ok n -> number k p n.
Proof. intros k p n H. apply attr_int_ok in H as (b & HB & ->). exists b. auto. Qed.

Lemma public_numbers : forall k p, rsa_public_numbers k = Ok p -> exists e n, p = RsaPub e n /\ number k PE e /\ number k PN n.
Proof.
  intros k p H. unfold rsa_public_numbers in H. apply bind_ok in H as (e & HE & H). apply bind_ok in H as (n & HN & H). injection H as <-.
  exists e, n. auto using attr_int_number.
Qed.

Lemma private_numbers : forall k p, rsa_private_numbers k = Ok p -> exists e n d q1 q2 dp dq qi, p = RsaPriv q1 q2 d dp dq qi (RsaPub e n) /\
  number k PE e /\ number k PN n /\ number k PD d /\ number k PP q1 /\ number k PQ q2 /\ number k PDP dp /\ number k PDQ dq /\ number k PQInv qi.
Proof.
  intros k p H. unfold rsa_private_numbers in H. apply bind_ok in H as (pub & HP & H). apply public_numbers in HP as (e & n & -> & HE & HN).
  apply bind_ok in H as (q1 & H1 & H). apply bind_ok in H as (q2 & H2 & H). apply bind_ok in H as (d & H3 & H).
  apply bind_ok in H as (dp & H4 & H). apply bind_ok in H as (dq & H5 & H). apply bind_ok in H as (qi & H6 & H). injection H as <-.
  exists e, n, d, q1, q2, dp, dq, qi. repeat (split; [auto using attr_int_number|]). auto using attr_int_number.
Qed.

(** The parameters of the key wrapping and key agreement classes are the registered ones. *)
Lemma registered_keys : Forall (fun e => match snd e with
  | AKw n => In (fst e, n) rfc_key_wraps
  | AOaep h => In (fst e, h) oaep_hashes
  | AEcdhHkdf h => In (fst e, h) ecdh_hkdfs
  | AEcdhKW w => In (fst e, w) ecdh_wraps
  | _ => True
  end) alg_defs.
Proof. unfold alg_defs. repeat (constructor; [cbn [fst snd]; first [exact I|reflexivity|repeat (first [left; reflexivity|right])]|]). constructor. Qed.

Section Cek.
Variable X : crypto.

Lemma alg_sign_made : forall seed a k t s, alg_sign X seed a k t = Ok s -> exists z, a = alg z /\ sig_made X seed z k t s.
Proof.
  intros seed a k t s H. unfold alg_sign in H. destruct (alg_kind a) as [q|] eqn:EK; [|discriminate]. destruct (kind_in a q EK) as (z & -> & HI).
  exists z. split; [reflexivity|]. destruct q; try discriminate.
  - apply bind_ok in H as (p & HP & H). apply private_numbers in HP as (e & n & d & q1 & q2 & dp & dq & qi & -> & HP). decompose [and] HP.
    eapply SM_rsa; try eassumption. exact (proj1 (Forall_forall _ _) registered_params _ HI).
  - apply bind_ok in H as (p & HP & H). discriminate.
  - apply bind_ok in H as (d & HD & H). apply attr_hex_ok in HD as (b & HB & ->). eapply SM_ecdsa; try eassumption.
    exact (proj1 (Forall_forall _ _) registered_params _ HI).
  - apply bind_ok in H as (c & HC & H). apply bind_ok in H as (d & HD & H). apply ed_curve_ok in HC as [HC HP]. apply attr_bytes_ok in HD.
    assert (HZ : z = (-8)%Z) by exact (proj1 (Forall_forall _ _) registered_params _ HI). subst z. eapply SM_eddsa; eassumption.
Qed.

Lemma alg_encrypt_sealed : forall a k n pt t ct, alg_encrypt X a k n pt t = Ok ct ->
  exists z nonce p, a = alg z /\ n = VBytes nonce /\ pt = VBytes p /\ aead_sealed X z k nonce t p ct.
Proof.
  intros a k n pt t ct H. unfold alg_encrypt in H. destruct (alg_kind a) as [q|] eqn:EK; [|discriminate]. destruct (kind_in a q EK) as (z & -> & HI).
  destruct q; try discriminate.
  all: apply bind_ok in H as (kb & HK & H); apply bind_ok in H as (nb & HN & H); apply bind_ok in H as (c & HC & H); apply as_bytes_ok in HN, HC; apply attr_bytes_ok in HK; subst.
  all: exists z, nb, c; do 3 (split; [reflexivity|]).
  - eapply AS_gcm; [|exact HK|exact H]. exact (proj1 (Forall_forall _ _) registered_params _ HI).
  - eapply AS_ccm; [|exact HK|exact H]. exact (proj1 (Forall_forall _ _) registered_params _ HI).
Qed.

Lemma signature_made : forall seed c st s, compute_signature X seed c st = Ok s ->
  exists z k t, get_attr c Algorithm = Ok (alg z) /\ ckey c = Some k /\ st = Ok t /\ sig_made X seed z k t s.
Proof.
  intros seed c st s H. unfold compute_signature in H. apply bind_ok in H as (a & HA & H). apply bind_ok in H as (k & HK & H). apply bind_ok in H as (? & _ & H).
  apply bind_ok in H as (t & HT & H). apply alg_sign_made in H as (z & -> & H). apply key_verification_key in HK. eauto 10.
Qed.

Lemma tag_made : forall ctx c g, law_aes_len X -> mac_compute X ctx c = Ok g ->
  exists z k t, get_attr c Algorithm = Ok (alg z) /\ ckey c = Some k /\ mac_structure ctx c = Ok t /\ mac_accepts X z k t g.
Proof.
  intros ctx c g LA H. unfold mac_compute in H. apply bind_ok in H as (a & HA & H). destruct (ckey c) as [k|] eqn:EK; [|discriminate].
  apply bind_ok in H as (? & _ & H). apply bind_ok in H as (? & _ & H). apply bind_ok in H as (t & HT & H).
  assert (HV : alg_verify_tag X a k (VBytes g) t = Ok true) by (unfold alg_verify_tag; rewrite H; cbn [bind]; rewrite veqb_refl; reflexivity).
  apply verify_tag_accepts in HV as (z & b & -> & E & HV); [|exact LA|exact (mac_structure_nonempty _ _ _ HT)]. injection E as <-. eauto 10.
Qed.

Lemma ciphertext_made : forall ctx c ct, enc_encrypt X ctx c = Ok ct ->
  exists z k nonce t pt, get_attr c Algorithm = Ok (alg z) /\ ckey c = Some k /\ get_nonce c = Ok (VBytes nonce) /\
    enc_structure ctx c = Ok t /\ payload c = Some pt /\ aead_sealed X z k nonce t pt ct.
Proof.
  intros ctx c ct H. unfold enc_encrypt in H. destruct (ckey c) as [k|] eqn:EK; [|discriminate]. apply bind_ok in H as (a & HA & H). apply bind_ok in H as (n & HN & H).
  apply bind_ok in H as (? & _ & H). apply bind_ok in H as (? & _ & H). apply bind_ok in H as (t & HT & H).
  apply alg_encrypt_sealed in H as (z & nonce & p & -> & -> & E & H). exists z, k, nonce, t, p. destruct (payload c) as [p'|]; [|discriminate]. injection E as ->. auto 10.
Qed.

(** ** Key agreement *)

Lemma peer_ok : forall v p, peer v = Ok p -> v = kval p.
Proof. intros v p H. unfold peer in H. destruct v; try discriminate. cbn in H. injection H as <-. reflexivity. Qed.

Lemma agree_agreed : forall c t pk a kb, agree_kek X c t pk (ckey c) a = Ok kb ->
  exists h pub z n, kex_hash a = Ok h /\ pk = kval pub /\ t = alg z /\ In (z, n) rfc_key_length /\ agreed X h c pub z n kb.
Proof.
  intros c t pk a kb H. unfold agree_kek in H. apply bind_ok in H as (h & HH & H). apply bind_ok in H as (pub & HP & H). apply bind_ok in H as (crv & HC & H).
  apply bind_ok in H as (kc & HK & H). destruct (ckey c) as [own|] eqn:EO; [|discriminate]. cbn [bind] in H. unfold derive_kek in H. rewrite HH in H. cbn [bind] in H.
  apply bind_ok in H as (s & HS & H). apply bind_ok in H as (info & HI & H). unfold ecdh in HS.
  apply bind_ok in HS as (d & HD & HS). apply bind_ok in HS as (x & HX & HS). apply bind_ok in HS as (y & HY & HS).
  apply attr_hex_ok in HD as (db & HD & ->). apply attr_hex_ok in HX as (xb & HX & ->). apply attr_hex_ok in HY as (yb & HY & ->).
  destruct crv as [| | | | | | | | | | | | | |[f cz]|]; try discriminate. destruct f; try discriminate. destruct (veqb _ _); [|discriminate].
  pose proof HK as HK'. unfold get_kdf_context in HK'. do 6 apply bind_ok in HK' as (? & _ & HK'). apply bind_ok in HK' as (len & HL & HK'). injection HK' as <-.
  cbn [kc_len] in H. assert (HT : exists z, t = alg z).
  { clear -HL. unfold get_key_length, alg_kind in HL. destruct t as [| | | | | | | | | | | | | |[f z]|]; try discriminate. destruct f; try discriminate. exists z. reflexivity. }
  destruct HT as [z ->]. exists h, pub, z, len. split; [exact HH|]. split; [exact (peer_ok _ _ HP)|]. split; [reflexivity|].
  split; [apply key_lengths; exact HL|]. exists own, cz, db, xb, yb, s. eexists. exists info.
  do 6 (split; [first [assumption|reflexivity]|]). split; [exact HK|]. split; [exact HI|exact H].
Qed.

Lemma kex_hkdf : forall a z h, alg_in a (ss_hkdf ++ es_hkdf) = Ok true -> kex_hash a = Ok h -> a = alg z -> In (z, h) ecdh_hkdfs.
Proof.
  intros a z h HA HH ->. unfold kex_hash in HH. destruct (alg_kind (alg z)) as [q|] eqn:EK; [|discriminate]. destruct (kind_in _ _ EK) as (z' & E & HI).
  injection E as <-. pose proof (proj1 (Forall_forall _ _) registered_keys _ HI) as HR. cbn [fst snd] in HR. destruct q; try discriminate; injection HH as <-; [|exact HR].
  exfalso. clear -HA HR. repeat (destruct HR as [HR|HR]; [injection HR as <- _; vm_compute in HA; discriminate|]). exact HR.
Qed.

Lemma alg_in_alg : forall a l b, alg_in a l = Ok b -> b = true -> exists z, In z l /\ a = alg z.
Proof.
  intros a l b H ->. unfold alg_in in H. destruct (hashable a); [|discriminate]. injection H as H. apply existsb_exists in H as (z & HI & H).
  exists z. split; [exact HI|]. apply veqb_eq in H. exact H.
Qed.

Lemma kw_key_secret : forall n k b, kw_key n k = Ok b -> secret k b /\ length b = n.
Proof.
  intros n k b H. unfold kw_key in H. apply bind_ok in H as (v & HV & H). apply bind_ok in H as (m & HM & H). destruct (Nat.eqb n m) eqn:E; [|discriminate].
  apply Nat.eqb_eq in E. apply as_bytes_ok in H. subst. cbn in HM. injection HM as <-. auto.
Qed.

Lemma wrap_in : forall a n q, alg_kind (alg a) = Some (AKw n) -> In (a, q) rfc_key_wraps -> q = n.
Proof. intros a n q HK H. cbn [rfc_key_wraps In] in H. repeat (destruct H as [H|H]; [injection H as <- <-; vm_compute in HK; injection HK as <-; reflexivity|]). destruct H. Qed.

Lemma unwrapped : forall a k d b, alg_key_unwrap X (alg a) k d = Ok b ->
  exists ct, d = VBytes ct /\
  ((exists kek, secret k kek /\ In (a, length kek) rfc_key_wraps /\ x_unwrap X kek ct = Ok b) \/
   (exists h e n d p q dp dq qi, In (a, h) oaep_hashes /\ number k PE e /\ number k PN n /\ number k PD d /\ number k PP p /\ number k PQ q /\
      number k PDP dp /\ number k PDQ dq /\ number k PQInv qi /\ x_oaep_dec X h (RsaPriv p q d dp dq qi (RsaPub e n)) ct = Ok b)).
Proof.
  intros a k d b H. unfold alg_key_unwrap in H. destruct (alg_kind (alg a)) as [q|] eqn:EK; [|discriminate]. destruct (kind_in _ _ EK) as (z & E & HI). injection E as <-.
  pose proof (proj1 (Forall_forall _ _) registered_keys _ HI) as HR. cbn [fst snd] in HR. destruct q; try discriminate.
  - apply bind_ok in H as (q & HQ & H). apply bind_ok in H as (ct & HC & H). apply as_bytes_ok in HC. subst d. exists ct. split; [reflexivity|]. right.
    apply private_numbers in HQ as (e & n & d & q1 & q2 & dp & dq & qi & -> & HP). decompose [and] HP. exists h, e, n, d, q1, q2, dp, dq, qi. auto 15.
  - apply bind_ok in H as (kek & HQ & H). apply bind_ok in H as (ct & HC & H). apply as_bytes_ok in HC. subst d. exists ct. split; [reflexivity|]. left.
    apply kw_key_secret in HQ as [HS HL]. exists kek. rewrite HL. auto.
Qed.

Lemma wrapped : forall seed a k d w, alg_key_wrap X seed (alg a) k d = Ok w ->
  exists cek, d = VBytes cek /\
  ((exists kek, secret k kek /\ In (a, length kek) rfc_key_wraps /\ x_wrap X kek cek = Ok w) \/
   (exists h e n, In (a, h) oaep_hashes /\ number k PE e /\ number k PN n /\ x_oaep_enc X h (RsaPub e n) seed cek = Ok w)).
Proof.
  intros seed a k d w H. unfold alg_key_wrap in H. destruct (alg_kind (alg a)) as [q|] eqn:EK; [|discriminate]. destruct (kind_in _ _ EK) as (z & E & HI). injection E as <-.
  pose proof (proj1 (Forall_forall _ _) registered_keys _ HI) as HR. cbn [fst snd] in HR. destruct q; try discriminate.
  - apply bind_ok in H as (q & HQ & H). apply bind_ok in H as (cek & HC & H). apply as_bytes_ok in HC. subst d. exists cek. split; [reflexivity|]. right.
    apply public_numbers in HQ as (e & n & -> & HE & HN). exists h, e, n. auto.
  - apply bind_ok in H as (kek & HQ & H). apply bind_ok in H as (cek & HC & H). apply as_bytes_ok in HC. subst d. exists cek. split; [reflexivity|]. left.
    apply kw_key_secret in HQ as [HS HL]. exists kek. rewrite HL. auto.
Qed.

Lemma known_kind : forall a, In a (aes_kw ++ es_kw ++ ss_kw)%list -> exists kd, alg_kind (alg a) = Some kd.
Proof. intros a H. cbn [aes_kw es_kw ss_kw app In] in H. repeat (destruct H as [<-|H]; [eexists; reflexivity|]). destruct H. Qed.

Lemma secret_fun : forall k b b', secret k b -> secret k b' -> b = b'.
Proof. intros k b b' H H'. unfold secret in *. rewrite H in H'. injection H' as ->. reflexivity. Qed.

Lemma sym_secret : forall v a ops k, sym_with v (alg a) ops = Ok k -> In ops used_ops -> In a (aes_kw ++ es_kw ++ ss_kw)%list -> exists b, v = VBytes b /\ secret k b.
Proof.
  intros v a ops k H HO HA. destruct (known_kind a HA) as [kd HK]. destruct (sym_with_is _ _ _ _ _ H HK HO) as (b & -> & ->). exists b. split; [reflexivity|reflexivity].
Qed.
Lemma not_oaep : forall a h, In a (aes_kw ++ es_kw ++ ss_kw)%list -> In (a, h) oaep_hashes -> False.
Proof. intros a h HA H. cbn [oaep_hashes In] in H. repeat (destruct H as [H|H]; [injection H as <- _; vm_compute in HA; repeat (destruct HA as [HA|HA]; [discriminate HA|]); exact HA|]). exact H. Qed.
Lemma kw_func : forall a w, get_key_wrap_func (alg a) = Ok w -> exists z, w = alg z /\ (In (a, z) ecdh_wraps \/ z = (-6)%Z).
Proof.
  intros a w H. unfold get_key_wrap_func in H. destruct (alg_kind (alg a)) as [q|] eqn:EK; [|discriminate]. destruct (kind_in _ _ EK) as (z & E & HI). injection E as <-.
  pose proof (proj1 (Forall_forall _ _) registered_keys _ HI) as HR. cbn [fst snd] in HR. destruct q; try discriminate; injection H as <-; eexists; (split; [reflexivity|auto]).
Qed.
Lemma wraps_hash : forall a w h, In (a, w) ecdh_wraps -> kex_hash (alg a) = Ok h -> h = SHA256 /\ In a (aes_kw ++ es_kw ++ ss_kw)%list /\ In w aes_kw.
Proof. intros a w h H HH. cbn [ecdh_wraps In] in H. repeat (destruct H as [H|H]; [injection H as <- <-; vm_compute in HH; injection HH as <-; split; [reflexivity|split; cbn; auto 10]|]). destruct H. Qed.
Lemma wrap_length : forall w n m, In (w, n) rfc_key_length -> In (w, m) rfc_key_wraps -> n = m.
Proof.
  intros w n m HN HM. cbn [rfc_key_wraps In] in HM.
  repeat (destruct HM as [HM|HM]; [injection HM as <- <-; cbn [rfc_key_length In] in HN; repeat (destruct HN as [HN|HN]; [try discriminate HN; injection HN as <-; reflexivity|]); destruct HN|]).
  destruct HM.
Qed.

Lemma rcpt_yields : forall r z b, rcpt_decrypt X r = Ok b -> yields X (r_core r) z b.
Proof.
  intros [id rc c ctx subs] z b H. cbn [r_core]. destruct rc; cbn [rcpt_decrypt] in H; try discriminate.
  - apply bind_ok in H as (a & HA & H). apply bind_ok in H as (kw & HKW & H). destruct kw.
    + apply bind_ok in H as (kb & HKB & H). apply bind_ok in H as (kek & HKE & H). apply bind_ok in H as (? & _ & H).
      destruct (alg_in_alg _ _ _ HKW eq_refl) as (za & HZ & ->).
      assert (HZ' : In za (aes_kw ++ es_kw ++ ss_kw)%list) by (apply in_or_app; left; exact HZ).
      destruct (sym_secret _ _ _ _ HKE ltac:(cbn; auto 10) HZ') as (s & -> & HS).
      destruct (ckey c) as [k|] eqn:EC.
      2:{ exfalso. destruct subs as [|r0 subs]; [discriminate|]. apply bind_ok in HKB as (? & _ & HKB). destruct (_ || _); [|discriminate].
          apply bind_ok in HKB as (? & _ & HKB). apply bind_ok in HKB as (? & _ & HKB). discriminate. }
      apply unwrapped in H as (ct & HP & [H|H]).
      * destruct H as (kk & HS' & HI & H). pose proof (secret_fun _ _ _ HS HS') as ->. destruct (payload c) as [pl|] eqn:EP; [|discriminate]. injection HP as ->.
        eapply Y_wrap; eassumption.
      * exfalso. destruct H as (h & ? & ? & ? & ? & ? & ? & ? & ? & H & _). exact (not_oaep _ _ HZ' H).
    + apply bind_ok in H as (oa & HOA & H). destruct oa; [|discriminate]. destruct (ckey c) as [k|] eqn:EC; [|discriminate].
      destruct (alg_in_alg _ _ _ HOA eq_refl) as (za & HZ & ->). apply bind_ok in H as (? & _ & H).
      apply unwrapped in H as (ct & HP & [H|H]); (destruct (payload c) as [pl|] eqn:EP; [|discriminate]; injection HP as ->).
      * destruct H as (kk & HS' & HI & H). eapply Y_wrap; eassumption.
      * destruct H as (h & e & n & d & p & q & dp & dq & qi & H). decompose [and] H. eapply Y_oaep; eassumption.
  - unfold kakw_decrypt in H. apply bind_ok in H as (a & HA & H). apply bind_ok in H as (es & HES & H). apply bind_ok in H as (pk & HPK & H).
    apply bind_ok in H as (wf & HW & H). apply bind_ok in H as (kb & HKB & H). apply bind_ok in H as (kek & HKE & H). apply bind_ok in H as (? & _ & H).
    assert (HAl : exists za, a = alg za /\ get_attr c (sender_header za) = Ok pk).
    { destruct es.
      - destruct (alg_in_alg _ _ _ HES eq_refl) as (za & HZ & ->). exists za. split; [reflexivity|]. cbn [es_kw In] in HZ. repeat (destruct HZ as [<-|HZ]; [exact HPK|]). destruct HZ.
      - apply bind_ok in HPK as (ss & HSS & HPK). destruct ss; [|discriminate].
        destruct (alg_in_alg _ _ _ HSS eq_refl) as (za & HZ & ->). exists za. split; [reflexivity|]. cbn [ss_kw In] in HZ. repeat (destruct HZ as [<-|HZ]; [exact HPK|]). destruct HZ. }
    destruct HAl as (za & -> & HPK'). apply agree_agreed in HKB as (h & pub & w & n & HH & -> & -> & HN & HAg).
    destruct (kw_func _ _ HW) as (w' & E & HWf). injection E as <-.
    destruct HWf as [HWf| ->]; [|exfalso; clear -HN; cbn [rfc_key_length In] in HN; repeat (destruct HN as [HN|HN]; [discriminate HN|]); exact HN].
    destruct (wraps_hash _ _ _ HWf HH) as (-> & HZ & HWK).
    destruct (sym_secret _ _ _ _ HKE ltac:(cbn; auto 10) HZ) as (s & E & HS). injection E as <-.
    apply unwrapped in H as (ct & HP & [H|H]).
    + destruct H as (kk & HS' & HI & H). pose proof (secret_fun _ _ _ HS HS') as ->. destruct (payload c) as [pl|] eqn:EP; [|discriminate]. injection HP as ->.
      pose proof (wrap_length _ _ _ HN HI) as ->. eapply Y_agree_wrap; try eassumption. reflexivity.
    + exfalso. destruct H as (h & ? & ? & ? & ? & ? & ? & ? & ? & H & _). apply (not_oaep w h); [|exact H]. apply in_or_app. left. exact HWK.
Qed.

Lemma sym_init_secret : forall kv opt allow k, sym_init kv opt allow = Ok k -> exists b, kv = VBytes b /\ secret k b.
Proof.
  intros kv opt allow k H. destruct (KeyProofs.sym_init_fresh _ _ _ _ H) as (_ & _ & HP).
  unfold sym_init in H. apply bind_ok in H as (k0 & H0 & H). apply CheckProofs.common_init_extra in H0 as [_ HC].
  destruct (veqb _ _); [discriminate|]. unfold set_k in H. destruct kv as [| | | |b| | | | | | | | | | |]; try discriminate. destruct (existsb _ _); [|discriminate].
  injection H as <-. exists b. split; [reflexivity|]. unfold secret, prop_get. cbn [store_set with_store k_cls]. rewrite HC. cbn [bytes_prop]. unfold dget_or.
  unfold param in HP. rewrite HP. reflexivity.
Qed.

(** [compute_cek] of a direct key agreement. *)
Lemma agree_cek : forall c t dec k, agree_compute_cek X c t dec = Ok k ->
  exists a h pub z n cek, get_attr c Algorithm = Ok (alg a) /\ In (a, h) ecdh_hkdfs /\ t = alg z /\ In (z, n) rfc_key_length /\
    (if dec then get_attr c (sender_header a) = Ok (kval pub) else dget (local c) StaticKey = Some (kval pub)) /\
    agreed X h c pub z n cek /\ secret k cek.
Proof.
  intros c t dec k H. unfold agree_compute_cek in H. apply bind_ok in H as (a & HA & H). apply bind_ok in H as (known & HK & H).
  destruct known; [|discriminate]. cbn [negb] in H. apply bind_ok in H as (pk & HPK & H). destruct (is_none pk) eqn:EN; [discriminate|].
  apply bind_ok in H as (p & HP & H). apply bind_ok in H as (? & _ & H). apply bind_ok in H as (lk & HLK & H). apply bind_ok in H as (? & _ & H).
  apply bind_ok in H as (kb & HKB & H). apply agree_agreed in HKB as (h & pub & z & n & HH & -> & -> & HN & HAg).
  destruct (alg_in_alg _ _ _ HK eq_refl) as (za & HZ & ->). pose proof (kex_hkdf _ za h HK HH eq_refl) as HI.
  apply sym_init_secret in H as (b & E & HS). injection E as <-.
  exists za, h, pub, z, n, kb. repeat (split; [assumption || reflexivity|]). split; [|split; [exact HAg|exact HS]].
  destruct dec; cbn [negb] in HPK.
  - apply bind_ok in HPK as (ss & HSS & HPK). clear -HZ HSS HPK. cbn [ss_hkdf es_hkdf app In] in HZ.
    repeat (destruct HZ as [<-|HZ]; [vm_compute in HSS; injection HSS as <-; exact HPK|]). destruct HZ.
  - injection HPK as HPK. unfold dget_or in HPK. destruct (dget (local c) StaticKey); [congruence|]. rewrite <- HPK in EN. discriminate.
Qed.

Lemma cek_yields : forall r z k, compute_cek X r (alg z) true = Ok k -> exists k' cek, k = Some k' /\ secret k' cek /\ yields X (r_core r) z cek.
Proof.
  intros r z k H. unfold compute_cek in H.
  assert (HD : forall b k', rcpt_decrypt X r = Ok b -> sym_with (VBytes b) (alg z) [DecryptOp] = Ok k' -> exists cek, secret k' cek /\ yields X (r_core r) z cek).
  { intros b k' HB HS. apply sym_init_secret in HS as (b' & E & HS). injection E as <-. exists b. split; [exact HS|]. apply rcpt_yields. exact HB. }
  destruct (r_class r); try discriminate.
  1,3: apply bind_ok in H as (b & HB & H); apply bind_ok in H as (k' & HK & H); injection H as <-; destruct (HD b k' HB HK) as (cek & H1 & H2); eauto 10.
  apply bind_ok in H as (k' & HK & H). injection H as <-. apply agree_cek in HK as (a & h & pub & z' & n & cek & HA & HI & E & HN & HP & HAg & HS). injection E as <-.
  exists k', cek. split; [reflexivity|]. split; [exact HS|]. eapply Y_agree; eassumption.
Qed.

Lemma encm_key : forall m r m' pt, encm_decrypt X m r = (m', Ok pt) ->
  (has_class RDirect (e_rcpts m) = true /\ m' = m) \/
  (has_class RDirect (e_rcpts m) = false /\
   exists z k cek, get_attr (e_core m) Algorithm = Ok (alg z) /\ m' = EncMsg (with_key (e_core m) (Some k)) (e_rcpts m) /\ secret k cek /\ yields X (r_core r) z cek).
Proof.
  intros m r m' pt H. destruct (encm_decrypt_opens X m r m' pt H) as (_ & (o & HO) & HD). apply enc_decrypt_opens in HD as (z & _ & _ & _ & _ & HA & _).
  rewrite HO in HA. change (get_attr (with_key (e_core m) o) Algorithm) with (get_attr (e_core m) Algorithm) in HA. clear o HO.
  unfold encm_decrypt in H. rewrite HA in H. destruct (negb _); [discriminate|].
  destruct (verify_recipients (e_rcpts m)); [|discriminate]. destruct (has_class RDirect (e_rcpts m)); [left; injection H as <- _; auto|].
  right. split; [reflexivity|]. destruct (_ || _); [|discriminate]. destruct (compute_cek X r _ true) as [k|] eqn:EK; [|discriminate]. injection H as <- _.
  apply cek_yields in EK as (k' & cek & -> & HS & HY). exists z, k', cek. auto.
Qed.

(** ** Sending *)

Lemma kw_sealed : forall n c subs w, kw_encrypt X n c subs = Ok w -> exists cek, payload c = Some cek /\ sealed X c cek w.
Proof.
  intros n c subs w H. unfold kw_encrypt in H. apply bind_ok in H as (a & HA & H). destruct (negb _); [discriminate|]. destruct (is_none a); [discriminate|].
  apply bind_ok in H as (kw & HKW & H). destruct kw.
  - apply bind_ok in H as (kb & HKB & H). apply bind_ok in H as (kek & HKE & H). apply bind_ok in H as (? & _ & H).
    destruct (alg_in_alg _ _ _ HKW eq_refl) as (za & HZ & ->). apply sym_init_secret in HKE as (s & -> & HS).
    unfold kw_kek_encrypt in HKB. destruct (ckey c) as [k|] eqn:EC.
    2:{ exfalso. destruct subs as [|r0 subs]; [discriminate|]. apply bind_ok in HKB as (? & _ & HKB). destruct (has_class RAgree _); [discriminate|]. destruct (_ || _); [|discriminate].
        apply bind_ok in HKB as (? & _ & HKB). discriminate. }
    apply wrapped in H as (cek & HP & [H|H]); (destruct (payload c) as [pl|] eqn:EP; [|discriminate]; injection HP as ->; exists cek; split; [reflexivity|]).
    + destruct H as (kk & HS' & HI & H). pose proof (secret_fun _ _ _ HS HS') as ->. eapply S_wrap; eassumption.
    + exfalso. destruct H as (h & ? & ? & H & _). apply (not_oaep za h); [|exact H]. apply in_or_app. left. exact HZ.
  - apply bind_ok in H as (oa & HOA & H). destruct oa; [|discriminate]. destruct (ckey c) as [k|] eqn:EC; [|discriminate].
    destruct (alg_in_alg _ _ _ HOA eq_refl) as (za & HZ & ->). apply bind_ok in H as (? & _ & H).
    apply wrapped in H as (cek & HP & [H|H]); (destruct (payload c) as [pl|] eqn:EP; [|discriminate]; injection HP as ->; exists cek; split; [reflexivity|]).
    + destruct H as (kk & HS' & HI & H). eapply S_wrap; eassumption.
    + destruct H as (h & e & m & HI & HE & HN & H). eapply S_oaep; eassumption.
Qed.

Lemma kakw_sealed : forall n c c1 w, kakw_encrypt X n c = (c1, Ok w) -> exists cek, payload c1 = Some cek /\ sealed X c1 cek w.
Proof.
  intros n c c1 w H. destruct (kakw_but X n c c1 w H) as [HB _]. pose proof (but_get c c1 Algorithm HB eq_refl) as HG. destruct HB as (_ & _ & HLo & _).
  unfold kakw_encrypt in H. destruct (is_none (dget_or (local c) StaticKey VNone)) eqn:EN; [discriminate|].
  destruct (get_attr c Algorithm) as [a|e] eqn:EA; [|discriminate]. destruct (is_none a); [discriminate|].
  match type of H with (let '(_, _) := ?m in _) = _ => destruct m as [c2 res] end. injection H as <- H.
  apply bind_ok in H as (? & _ & H). rewrite HG in H. cbn [bind] in H. apply bind_ok in H as (wf & HW & H). apply bind_ok in H as (kb & HKB & H).
  apply bind_ok in H as (kek & HKE & H). apply agree_agreed in HKB as (h & pub & wz & len & HH & HPK & -> & HN & HAg).
  assert (HAl : exists za, a = alg za).
  { unfold kex_hash in HH. destruct (alg_kind a) as [q|] eqn:EK; [|discriminate]. destruct (kind_in a q EK) as (za & -> & _). eauto. }
  destruct HAl as [za ->]. destruct (kw_func _ _ HW) as (w' & E & HWf). injection E as <-.
  destruct HWf as [HWf| ->]; [|exfalso; clear -HN; cbn [rfc_key_length In] in HN; repeat (destruct HN as [HN|HN]; [discriminate HN|]); exact HN].
  destruct (wraps_hash _ _ _ HWf HH) as (-> & HZ & HWK). apply sym_init_secret in HKE as (s & E & HS). injection E as <-.
  assert (HL : dget (local c2) StaticKey = Some (kval pub)).
  { rewrite HLo. unfold dget_or in HPK, EN. destruct (dget (local c) StaticKey); [congruence|discriminate]. }
  apply wrapped in H as (cek & HP & [H|H]); (destruct (payload c2) as [pl|] eqn:EP; [|discriminate]; injection HP as ->; exists cek; split; [reflexivity|]).
  - destruct H as (kk & HS' & HI & H). pose proof (secret_fun _ _ _ HS HS') as ->. pose proof (wrap_length _ _ _ HN HI) as ->.
    eapply S_agree_wrap; try eassumption. reflexivity.
  - exfalso. destruct H as (h & ? & ? & H & _). apply (not_oaep wz h); [|exact H]. apply in_or_app. left. exact HWK.
Qed.

Lemma rcpt_sent : forall n r n' r' v, rcpt_encode X n r = ((n', r'), Ok v) -> sent X r' v.
Proof.
  intros n r n' r' v H. apply encode_emits in H as (p & w & tail & -> & _ & _ & HC & _ & HM). exists p, w, tail. split; [reflexivity|]. rewrite HC.
  destruct (r_class r).
  - destruct HM as (_ & -> & _). reflexivity.
  - destruct HM as (-> & HM). eapply kw_sealed. exact HM.
  - destruct HM as (-> & _). reflexivity.
  - eapply kakw_sealed. exact HM.
Qed.

Lemma rcpts_sent : forall l n n' l' vs, rcpts_encode X n l = ((n', l'), Ok vs) -> Forall2 (sent X) l' vs.
Proof.
  induction l as [|r l IH]; intros n n' l' vs H; cbn [rcpts_encode] in H; [injection H as _ <- <-; constructor|].
  destruct (rcpt_encode X n r) as [[n1 r'] [v|e]] eqn:ER; [|discriminate]. destruct (rcpts_encode X n1 l) as [[n2 l2] [vs2|e]] eqn:EL; [|discriminate].
  injection H as _ <- <-. constructor; [eapply rcpt_sent; exact ER|eapply IH; exact EL].
Qed.

Lemma enc_sent : forall n m t e n' m' b, encm_encode X n m t e = ((n', m'), Ok b) -> e_rcpts m' <> [] ->
  exists p body vs, emit (e_core m') 96 t [VBytes p; VDict (uhdr (e_core m')); body; VList vs] = Ok b /\ Forall2 (sent X) (e_rcpts m') vs.
Proof.
  intros n m t e n' m' b H HN. unfold encm_encode in H. destruct (phdr_encoded (e_core m)) as [p|]; [|discriminate].
  match type of H with (let '(_, _) := ?m in _) = _ => destruct m as [[n1 m1] body] end. destruct body as [body|]; [|discriminate].
  destruct (e_rcpts m1) as [|r rs] eqn:ER; [injection H as _ <- _; contradiction|]. destruct (get_attr (e_core m1) Algorithm); [|discriminate].
  destruct (rcpts_encode X n1 (r :: rs)) as [[n2 rs'] [vs|]] eqn:EV; [|discriminate]. injection H as _ <- H. cbn [e_core e_rcpts] in *.
  exists p, body, vs. split; [exact H|]. eapply rcpts_sent. exact EV.
Qed.

Lemma mac_sent : forall n m t g n' m' b rs, macm_encode X n m t g = ((n', m'), Ok b) -> mm_rcpts m' = Some rs -> rs <> [] ->
  exists p tag vs, emit (mm_core m') 97 t (VBytes p :: VDict (uhdr (mm_core m')) :: vopt (payload (mm_core m')) :: tag ++ [VList vs]) = Ok b /\ Forall2 (sent X) rs vs.
Proof.
  intros n m t g n' m' b rs H HR HN. unfold macm_encode in H. destruct (phdr_encoded (mm_core m)) as [p|]; [|discriminate].
  match type of H with (let '(_, _) := ?m in _) = _ => destruct m as [[n1 m1] tl] end. destruct tl as [tl|]; [|discriminate].
  destruct (mm_rcpts m1) as [[|r rs1]|] eqn:ER; [injection H as _ <- _; congruence| |discriminate]. destruct (get_attr (mm_core m1) Algorithm); [|discriminate].
  destruct (rcpts_encode X n1 (r :: rs1)) as [[n2 rs'] [vs|]] eqn:EV; [|discriminate]. injection H as _ <- H. cbn [mm_core mm_rcpts] in *. injection HR as <-.
  exists p, tl, vs. split; [exact H|]. eapply rcpts_sent. exact EV.
Qed.

Lemma agree_alone : forall rs, verify_recipients rs = Ok tt -> has_class RAgree rs = true -> has_class RDirect rs = false /\ exists r, rs = [r] /\ r_class r = RAgree.
Proof.
  intros rs HV HA. unfold verify_recipients in HV. destruct (_ && _) eqn:E1 in HV; [discriminate|]. destruct (_ && _) eqn:E2 in HV; [discriminate|]. rewrite HA in E2. cbn [andb] in E2.
  destruct rs as [|r [|r' rs]]; [discriminate| |discriminate]. clear E1 E2 HV. unfold has_class in *. cbn [existsb] in *. rewrite orb_false_r in *.
  destruct (r_class r) eqn:ER; try discriminate. split; [reflexivity|]. exists r. auto.
Qed.

(** [k] is the content key the sender agrees on with its only recipient [r]. *)
Lemma sender_agrees : forall r z k, r_class r = RAgree -> compute_cek X r (alg z) false = Ok k ->
  exists k' a h pub n cek, k = Some k' /\ get_attr (r_core r) Algorithm = Ok (alg a) /\ In (a, h) ecdh_hkdfs /\ In (z, n) rfc_key_length /\
    dget (local (r_core r)) StaticKey = Some (kval pub) /\ agreed X h (r_core r) pub z n cek /\ secret k' cek.
Proof.
  intros r z k HR H. unfold compute_cek in H. rewrite HR in H. apply bind_ok in H as (k' & HK & H). injection H as <-.
  apply agree_cek in HK as (a & h & pub & z' & n & cek & HA & HI & E & HN & HP & HAg & HS). injection E as <-. exists k', a, h, pub, n, cek. auto 10.
Qed.

Lemma encm_agrees : forall n m n' m' ct, encm_encrypt X n m = ((n', m'), Ok ct) -> has_class RAgree (e_rcpts m) = true ->
  exists r z k a h pub l cek, e_rcpts m = [r] /\ get_attr (e_core m) Algorithm = Ok (alg z) /\ m' = EncMsg (with_key (e_core m) (Some k)) [r] /\
    get_attr (r_core r) Algorithm = Ok (alg a) /\ In (a, h) ecdh_hkdfs /\ In (z, l) rfc_key_length /\
    dget (local (r_core r)) StaticKey = Some (kval pub) /\ agreed X h (r_core r) pub z l cek /\ secret k cek.
Proof.
  intros n m n' m' ct H HA. unfold encm_encrypt in H. destruct (bind (get_attr (e_core m) Algorithm) _) as [t|] eqn:E; [|discriminate].
  apply bind_ok in E as (t' & HT & E). apply bind_ok in E as ([] & HV & E). injection E as ->. destruct (agree_alone _ HV HA) as (HD & r & HR & HC).
  rewrite HD, HA, HR in H. destruct (compute_cek X r t false) as [k|] eqn:EK; [|discriminate]. injection H as _ <- H.
  destruct (ciphertext_made _ _ _ H) as (z & _ & _ & _ & _ & HZ & _). change (get_attr (with_key (e_core m) k) Algorithm) with (get_attr (e_core m) Algorithm) in HZ.
  rewrite HT in HZ. injection HZ as ->. apply sender_agrees in EK as (k' & a & h & pub & l & cek & -> & HH); [|exact HC].
  exists r, z, k', a, h, pub, l, cek. split; [exact HR|]. split; [exact HT|]. split; [reflexivity|exact HH].
Qed.

Lemma macm_agrees : forall n m n' m' g rs, macm_compute_tag X n m = ((n', m'), Ok g) -> mm_rcpts m = Some rs -> has_class RAgree rs = true ->
  exists r z k a h pub l cek, rs = [r] /\ get_attr (mm_core m) Algorithm = Ok (alg z) /\ m' = MacMsg (with_key (mm_core m) (Some k)) (VBytes g) (Some [r]) /\
    get_attr (r_core r) Algorithm = Ok (alg a) /\ In (a, h) ecdh_hkdfs /\ In (z, l) rfc_key_length /\
    dget (local (r_core r)) StaticKey = Some (kval pub) /\ agreed X h (r_core r) pub z l cek /\ secret k cek.
Proof.
  intros n m n' m' g rs H HM HA. unfold macm_compute_tag in H. destruct (get_attr (mm_core m) Algorithm) as [t|] eqn:HT; [|discriminate]. rewrite HM in H.
  destruct (verify_recipients rs) as [[]|] eqn:HV; [|discriminate]. destruct (agree_alone _ HV HA) as (HD & r & HR & HC).
  rewrite HD, HA, HR in H. destruct (compute_cek X r t false) as [k|] eqn:EK; [|discriminate]. unfold mac_super_compute in H. cbn [mm_core mm_rcpts] in H.
  destruct (mac_compute X "MAC" _) as [g'|] eqn:EM; [|discriminate]. injection H as _ <- ->.
  assert (HZ : exists z, t = alg z).
  { unfold mac_compute in EM. change (get_attr (with_key (mm_core m) k) Algorithm) with (get_attr (mm_core m) Algorithm) in EM. rewrite HT in EM. cbn [bind] in EM.
    destruct (ckey _) as [kk|]; [|discriminate]. do 3 apply bind_ok in EM as (? & _ & EM). unfold alg_compute_tag in EM.
    destruct (alg_kind t) as [q|] eqn:EQ; [|discriminate]. destruct (kind_in _ _ EQ) as (z & -> & _). eauto. }
  destruct HZ as [z ->]. apply sender_agrees in EK as (k' & a & h & pub & l & cek & -> & HH); [|exact HC].
  exists r, z, k', a, h, pub, l, cek. split; [exact HR|]. split; [reflexivity|]. split; [reflexivity|exact HH].
Qed.

(** ** The salt *)

Lemma salted_attr : forall c v a, keyeq a Salt = false -> get_attr (salted c v) a = get_attr c a.
Proof.
  intros c v a H. unfold get_attr, get_attr_default, salted, dget_or. cbn [phdr uhdr with_uhdr]. rewrite (dget_dset_other _ _ _ _ H). reflexivity.
Qed.

Lemma salted_kek : forall c v t pk lk a, agree_kek X (salted c v) t pk lk a = agree_kek X c t pk lk a.
Proof.
  intros c v t pk lk a. unfold agree_kek. assert (E : get_kdf_context (salted c v) t = get_kdf_context c t).
  { unfold get_kdf_context. rewrite !salted_attr by reflexivity. reflexivity. }
  rewrite E. reflexivity.
Qed.

Lemma salted_cek : forall r v t dec, r_class r = RAgree \/ r_class r = RAgreeKW ->
  compute_cek X (r_with r (salted (r_core r) v)) t dec = compute_cek X r t dec.
Proof.
  intros [id rc c ctx subs] v t dec HC. cbn [r_class] in HC. unfold compute_cek. cbn [r_with r_core r_class].
  destruct HC as [-> | ->].
  - unfold agree_compute_cek. rewrite !salted_attr by reflexivity. change (ckey (salted c v)) with (ckey c). change (local (salted c v)) with (local c).
    destruct (get_attr c Algorithm) as [a|]; [|reflexivity]. cbn [bind]. destruct (alg_in a _) as [[]|]; [|reflexivity..]. cbn [bind negb].
    match goal with |- bind (bind ?m _) _ = _ => destruct m as [pk|]; [|reflexivity] end. cbn [bind]. destruct (is_none pk); [reflexivity|].
    rewrite salted_kek. reflexivity.
  - cbn [rcpt_decrypt]. unfold kakw_decrypt. rewrite !salted_attr by reflexivity. change (ckey (salted c v)) with (ckey c). change (payload (salted c v)) with (payload c).
    destruct dec; [|reflexivity]. destruct (get_attr c Algorithm) as [a|]; [|reflexivity]. cbn [bind]. destruct (alg_in a es_kw) as [es|]; [|reflexivity]. cbn [bind].
    match goal with |- bind (bind ?m _) _ = _ => destruct m as [pk|]; [|reflexivity] end. cbn [bind]. destruct (get_key_wrap_func a) as [wf|]; [|reflexivity]. cbn [bind].
    rewrite salted_kek. reflexivity.
Qed.
End Cek.
