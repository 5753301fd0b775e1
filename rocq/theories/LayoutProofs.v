(** Lemmas about what the message classes pass to the primitives and put on the wire. *)
From Coq Require Import NArith ZArith Bool String Lia ZifyBool ZifyNat ZifyN.
From Coq Require Import Init.Byte List.
From Verif Require Import Bytes BytesProofs Value Cbor CborProofs ValueProofs SpecData DataProofs
  Registry Crypto Keys Algorithms Headers Messages Recipients SpecRfc SpecStruct StructProofs.
Import ListNotations.
Local Open Scope N_scope.
Local Open Scope result_scope.

(** ** Attached and detached payloads (C11) *)

Lemma sign1_detached_structure : forall c p,
  sign1_structure (with_payload c (Some p)) VNone =
  sign1_structure (with_payload c None) (VBytes p).
Proof. reflexivity. Qed.

Lemma compute_signature_payload : forall X seed c p q st,
  compute_signature X seed (with_payload c p) st = compute_signature X seed (with_payload c q) st.
Proof. reflexivity. Qed.

Lemma signer_detached_structure : forall m s p,
  signer_structure (Some (with_payload m (Some p))) s VNone =
  signer_structure (Some (with_payload m None)) s (VBytes p).
Proof. reflexivity. Qed.

Lemma sig_payload_both : forall p d, d <> VNone -> sig_payload (Some p) d = Err CoseException.
Proof. intros p [] H; try reflexivity. congruence. Qed.

Lemma sig_payload_bad : forall a d, bad_payloads a d -> sig_payload a d = Err CoseException.
Proof.
  intros a d [[H1 H2]|[-> ->]]; [|reflexivity]. destruct a; [|congruence].
  apply sig_payload_both. assumption.
Qed.

Lemma sign1_structure_bad : forall c d, bad_payloads (payload c) d ->
  exists e, sign1_structure c d = Err e /\ (forall p, phdr_encoded c = Ok p -> e = CoseException).
Proof.
  intros c d H. unfold sign1_structure, base_protected. rewrite (sig_payload_bad _ _ H).
  destruct (phdr c) as [|x r].
  - exists CoseException. split; [reflexivity|auto].
  - destruct (phdr_encoded c) as [p|e].
    + exists CoseException. split; [reflexivity|auto].
    + exists e. split; [reflexivity|]. intros p Hp. discriminate.
Qed.

Lemma signer_structure_bad : forall m s d, bad_payloads (payload m) d ->
  exists e, signer_structure (Some m) s d = Err e /\
    (forall p q, phdr_encoded m = Ok p -> phdr_encoded s = Ok q -> e = CoseException).
Proof.
  intros m s d H. unfold signer_structure. rewrite (sig_payload_bad _ _ H).
  destruct (phdr_encoded m) as [p|e].
  2:{ exists e. split; [reflexivity|]. intros p q Hp. discriminate. }
  cbn [bind]. destruct (phdr s) as [|x r].
  - exists CoseException. split; [reflexivity|auto].
  - destruct (phdr_encoded s) as [q|e].
    + exists CoseException. split; [reflexivity|auto].
    + exists e. split; [reflexivity|]. intros p' q Hp Hq. discriminate.
Qed.

Lemma compute_signature_err : forall X X' seed c e,
  compute_signature X seed c (Err e) = compute_signature X' seed c (Err e) /\
  exists e', compute_signature X seed c (Err e) = Err e'.
Proof.
  intros X X' seed c e. unfold compute_signature.
  destruct (get_attr c Algorithm) as [alg|e1]; [|cbn; eauto]. cbn [bind].
  destruct (key_verification c alg SignOp) as [k|e1]; [|cbn; eauto]. cbn [bind].
  destruct (has_sign alg) as [u|e1]; cbn; eauto.
Qed.

Lemma verify_signature_err : forall X X' c e sig,
  verify_signature X c (Err e) sig = verify_signature X' c (Err e) sig /\
  exists e', verify_signature X c (Err e) sig = Err e'.
Proof.
  intros X X' c e sig. unfold verify_signature.
  destruct (get_attr c Algorithm) as [alg|e1]; [|cbn; eauto]. cbn [bind].
  destruct (key_verification c alg VerifyOp) as [k|e1]; [|cbn; eauto]. cbn [bind].
  destruct (has_sign alg) as [u|e1]; cbn; eauto.
Qed.

(** The checks that precede signing, and their failure, do not involve the primitives. *)
Lemma sign1_bad_payloads : forall X X' seed m tag d,
  bad_payloads (payload (s1_core m)) d ->
  (sign1_encode X seed m tag true d = sign1_encode X' seed m tag true d) /\
  (exists e, sign1_encode X seed m tag true d = Err e) /\
  (sign1_verify X m d = sign1_verify X' m d) /\
  (exists e, sign1_verify X m d = Err e).
Proof.
  intros X X' seed m tag d H. destruct (sign1_structure_bad _ _ H) as (e & HE & _).
  unfold sign1_encode, sign1_verify. rewrite HE.
  destruct (compute_signature_err X X' seed (s1_core m) e) as [E1 [e1 E2]].
  destruct (verify_signature_err X X' (s1_core m) e (s1_sig m)) as [V1 V2].
  split; [rewrite E1; reflexivity|]. split; [|auto].
  destruct (phdr_encoded (s1_core m)); [|cbn; eauto]. cbn [bind]. rewrite E2. cbn. eauto.
Qed.

(** With a usable key and algorithm, the exception is CoseException. *)
Lemma sign1_bad_payloads_exn : forall X seed m tag d alg k p,
  bad_payloads (payload (s1_core m)) d ->
  get_attr (s1_core m) Algorithm = Ok alg -> has_sign alg = Ok tt ->
  phdr_encoded (s1_core m) = Ok p ->
  (key_verification (s1_core m) alg SignOp = Ok k ->
   sign1_encode X seed m tag true d = Err CoseException) /\
  (key_verification (s1_core m) alg VerifyOp = Ok k ->
   sign1_verify X m d = Err CoseException).
Proof.
  intros X seed m tag d alg k p H HA HS HP.
  destruct (sign1_structure_bad _ _ H) as (e & HE & HX). rewrite (HX _ HP) in HE.
  split; intros HK.
  - unfold sign1_encode. rewrite HP. cbn [bind]. unfold compute_signature.
    rewrite HA. cbn [bind]. rewrite HK. cbn [bind]. rewrite HS, HE. reflexivity.
  - unfold sign1_verify, verify_signature.
    rewrite HA. cbn [bind]. rewrite HK. cbn [bind]. rewrite HS, HE. reflexivity.
Qed.

Lemma signer_bad_payloads : forall X X' seed m s d,
  bad_payloads (payload m) d ->
  (signer_encode X seed (Some m) s d = signer_encode X' seed (Some m) s d) /\
  (exists e, signer_encode X seed (Some m) s d = Err e) /\
  (signer_verify X (Some m) s d = signer_verify X' (Some m) s d) /\
  (exists e, signer_verify X (Some m) s d = Err e).
Proof.
  intros X X' seed m s d H. destruct (signer_structure_bad _ s _ H) as (e & HE & _).
  unfold signer_encode, signer_verify. rewrite HE.
  destruct (compute_signature_err X X' seed s e) as [E1 [e1 E2]].
  destruct (verify_signature_err X X' s e (vopt (payload s))) as [V1 V2].
  split; [rewrite E1; reflexivity|]. split; [|auto].
  destruct (phdr_encoded s); [|cbn; eauto]. cbn [bind]. rewrite E2. cbn. eauto.
Qed.

Lemma sign_encode_bad_payloads : forall X X' seed m tag d,
  sm_signers m <> [] -> bad_payloads (payload (sm_core m)) d ->
  sign_encode X seed m tag d = sign_encode X' seed m tag d /\
  exists e, sign_encode X seed m tag d = Err e.
Proof.
  intros X X' seed m tag d HN H. unfold sign_encode.
  destruct (phdr_encoded (sm_core m)) as [p|e]; [|cbn; eauto]. cbn [bind].
  destruct (sm_signers m) as [|s r]; [congruence|]. cbn [signers_encode].
  destruct (signer_bad_payloads X X' seed (sm_core m) s d H) as (E1 & (e & E2) & _).
  rewrite <- E1, E2. cbn [bind]. eauto.
Qed.

(** ** Layout of an encoded message *)

Lemma Forall2_ex : forall A B (P : A -> B -> Prop) l, (forall a, In a l -> exists b, P a b) ->
  exists m, Forall2 P l m.
Proof.
  intros A B P l. induction l as [|a l IH]; intros H; [exists []; constructor|].
  destruct (H a (or_introl eq_refl)) as [b Hb].
  destruct IH as [m Hm]; [intros x Hx; apply H; right; assumption|].
  exists (b :: m). constructor; assumption.
Qed.

Lemma dumps_list : forall h l b, dumps cls_fullname h (VList l) = Ok b ->
  exists items, Forall2 (fun v x => dumps cls_fullname h v = Ok x) l items /\
    b = rfc_array items.
Proof.
  intros h l b H. apply dumps_ok in H as (c & HL & HW & ->).
  cbn [lower] in HL. apply bind_ok in HL as (cs & HM & E). injection E as <-.
  apply mapM_Forall2 in HM. rewrite wfc_arr in HW. apply andb_true_iff in HW as [HN HW].
  apply N.ltb_lt in HN.
  exists (map enc cs). split.
  - clear HN. induction HM as [|v c l cs Hv HM IH]; [constructor|].
    cbn [forallb] in HW. apply andb_true_iff in HW as [Hc HW].
    cbn [map]. constructor; [|auto]. unfold dumps. rewrite Hv. cbn [bind]. rewrite Hc. reflexivity.
  - apply enc_arr_rfc. assumption.
Qed.

Lemma dumps_tag : forall h t v b, dumps cls_fullname h (VTag t v) = Ok b ->
  exists x, dumps cls_fullname h v = Ok x /\ b = rfc_tag t x.
Proof.
  intros h t v b H. apply dumps_ok in H as (c & HL & HW & ->).
  cbn [lower] in HL. apply bind_ok in HL as (c' & HM & E). injection E as <-.
  cbn [wfc] in HW. apply andb_true_iff in HW as [HN HW]. apply N.ltb_lt in HN.
  exists (enc c'). split.
  - unfold dumps. rewrite HM. cbn [bind]. rewrite HW. reflexivity.
  - cbn [enc]. unfold rfc_tag. rewrite head_rfc by assumption. reflexivity.
Qed.

Lemma emit_layout : forall c t tag l b, emit c t tag l = Ok b ->
  exists items, Forall2 (fun v x => dumps_msg c v = Ok x) l items /\
    b = maybe_tag tag t (rfc_array items).
Proof.
  intros c t [|] l b H; unfold emit, dumps_msg in *.
  - apply dumps_tag in H as (x & H & ->). apply dumps_list in H as (items & HF & ->). eauto.
  - apply dumps_list in H as (items & HF & ->). eauto.
Qed.

Lemma dumps_bytes : forall h b x, dumps cls_fullname h (VBytes b) = Ok x -> x = rfc_bstr b.
Proof.
  intros h b x H. apply dumps_ok in H as (c & HL & HW & ->). injection HL as <-.
  rewrite wfc_bytes in HW. apply N.ltb_lt in HW. apply enc_bytes_rfc. assumption.
Qed.

Lemma dumps_vopt : forall h o x, dumps cls_fullname h (vopt o) = Ok x -> x = rfc_opt_bstr o.
Proof.
  intros h [b|] x H; [eapply dumps_bytes; eassumption|]. injection H as <-. reflexivity.
Qed.

Ltac inv_F2 H := inversion H; subst; clear H.

Lemma emit_base : forall c t tag p extra b,
  emit c t tag ([VBytes p; VDict (uhdr c); vopt (payload c)] ++ extra) = Ok b ->
  exists u xs, dumps_msg c (VDict (uhdr c)) = Ok u /\
    Forall2 (fun v x => dumps_msg c v = Ok x) extra xs /\
    b = maybe_tag tag t (rfc_array ([rfc_bstr p; u; rfc_opt_bstr (payload c)] ++ xs)).
Proof.
  intros c t tag p extra b H. apply emit_layout in H as (items & HF & ->).
  cbn [app] in HF. inversion HF as [|v1 x1 l1 m1 H1 HF1]; subst.
  inversion HF1 as [|v2 x2 l2 m2 H2 HF2]; subst. inversion HF2 as [|v3 x3 l3 m3 H3 HF3]; subst.
  apply (dumps_bytes (HMsg (tstr c))) in H1. apply (dumps_vopt (HMsg (tstr c))) in H3. subst. exists x2, m3. split; [exact H2|]. split; [exact HF3|reflexivity].
Qed.

(** *** What is signed and sent, per message kind *)

Lemma compute_signature_inv : forall X seed c st sig, compute_signature X seed c st = Ok sig ->
  exists alg k t, get_attr c Algorithm = Ok alg /\ ckey c = Some k /\ st = Ok t /\
    alg_sign X seed alg k t = Ok sig.
Proof.
  intros X seed c st sig H. unfold compute_signature in H.
  apply bind_ok in H as (alg & HA & H). apply bind_ok in H as (k & HK & H).
  apply bind_ok in H as (u & HS & H). apply bind_ok in H as (t & HT & H).
  exists alg, k, t. split; [assumption|]. split; [|auto].
  unfold key_verification in HK. destruct (ckey c) as [k'|]; [|discriminate].
  destruct (k_cls k'); try discriminate; apply bind_ok in HK as (w & _ & HK); congruence.
Qed.

Lemma verify_signature_inv : forall X c st sig r, verify_signature X c st sig = Ok r ->
  exists alg k t, get_attr c Algorithm = Ok alg /\ ckey c = Some k /\ st = Ok t /\
    alg_verify X alg k t sig = Ok r.
Proof.
  intros X c st sig r H. unfold verify_signature in H.
  apply bind_ok in H as (alg & HA & H). apply bind_ok in H as (k & HK & H).
  apply bind_ok in H as (u & HS & H). apply bind_ok in H as (t & HT & H).
  exists alg, k, t. split; [assumption|]. split; [|auto].
  unfold key_verification in HK. destruct (ckey c) as [k'|]; [|discriminate].
  destruct (k_cls k'); try discriminate; apply bind_ok in HK as (w & _ & HK); congruence.
Qed.

Lemma sign1_structure_rfc : forall c d t, sign1_structure c (vopt d) = Ok t ->
  exists p pl, protected_field c p /\ signed_payload (payload c) d pl /\
    t = Sig_structure1 p (aad c) pl.
Proof.
  intros c d t H. apply sign1_structure_inv in H as (p & pl & HP & HL & HW & ->).
  exists p, pl. split; [assumption|]. split; [assumption|]. rewrite enc_ctx_rfc by assumption.
  reflexivity.
Qed.

Lemma enc_structure_rfc : forall ctx c t, enc_structure ctx c = Ok t ->
  exists p, protected_field c p /\ t = Enc_structure ctx p (aad c).
Proof.
  intros ctx c t H. apply enc_structure_inv in H as (p & HP & HW & ->).
  exists p. split; [assumption|]. rewrite enc_ctx_rfc by assumption. reflexivity.
Qed.

Lemma mac_structure_rfc : forall ctx c t, mac_structure ctx c = Ok t ->
  exists p pl, protected_field c p /\ payload c = Some pl /\ t = MAC_structure ctx p (aad c) pl.
Proof.
  intros ctx c t H. apply mac_structure_inv in H as (p & pl & HP & HL & HW & ->).
  exists p, pl. split; [assumption|]. split; [assumption|]. rewrite enc_ctx_rfc by assumption.
  reflexivity.
Qed.

Lemma plain_protected_field : forall c p, plain_protected c -> phdr_encoded c = Ok p ->
  protected_field c p.
Proof.
  intros c p HC HP. split; [|auto]. intros E. unfold phdr_encoded in HP. rewrite E in HP.
  destruct HC as [HC|[HC|HC]]; [congruence| |]; rewrite HC in HP; congruence.
Qed.

Lemma signer_structure_rfc : forall m s d t, signer_structure (Some m) s (vopt d) = Ok t ->
  phdr s <> [] -> plain_protected m ->
  exists bp sp pl, protected_field m bp /\ protected_field s sp /\
    signed_payload (payload m) d pl /\ t = Sig_structure bp sp (aad s) pl.
Proof.
  intros m s d t H HS HM.
  apply signer_structure_inv in H as (bp & sp & pl & HB & HP & HL & HW & ->).
  destruct sp as [sp|]; [|cbn in HP; congruence]. destruct HP as [_ HP].
  exists bp, sp, pl. split; [apply plain_protected_field; assumption|].
  split; [split; [congruence|auto]|]. split; [assumption|].
  rewrite enc_ctx_rfc by assumption. reflexivity.
Qed.

Lemma sign1_encode_rfc : forall X seed m tag d b,
  sign1_encode X seed m tag true (vopt d) = Ok b ->
  let c := s1_core m in
  exists alg k p tbp pl sig u,
    get_attr c Algorithm = Ok alg /\ ckey c = Some k /\
    phdr_encoded c = Ok p /\ protected_field c tbp /\ signed_payload (payload c) d pl /\
    alg_sign X seed alg k (Sig_structure1 tbp (aad c) pl) = Ok sig /\
    dumps_msg c (VDict (uhdr c)) = Ok u /\
    b = maybe_tag tag 18 (rfc_array [rfc_bstr p; u; rfc_opt_bstr (payload c); rfc_bstr sig]).
Proof.
  intros X seed m tag d b H c. unfold sign1_encode in H. fold c in H.
  apply bind_ok in H as (p & HP & H). apply bind_ok in H as (items & HI & H).
  apply bind_ok in HI as (sig & HS & E). injection E as <-.
  apply compute_signature_inv in HS as (alg & k & t & HA & HK & HT & HS).
  apply sign1_structure_rfc in HT as (tbp & pl & HB & HL & ->).
  apply emit_base in H as (u & xs & HU & HF & ->).
  inversion HF as [|v1 x1 l1 m1 H1 HF1]; subst. inversion HF1; subst. apply (dumps_bytes (HMsg (tstr c))) in H1. subst.
  exists alg, k, p, tbp, pl, sig, u. auto 9.
Qed.

Lemma sign1_verify_rfc : forall X m d r,
  sign1_verify X m (vopt d) = Ok r ->
  let c := s1_core m in
  exists alg k tbp pl,
    get_attr c Algorithm = Ok alg /\ ckey c = Some k /\
    protected_field c tbp /\ signed_payload (payload c) d pl /\
    alg_verify X alg k (Sig_structure1 tbp (aad c) pl) (s1_sig m) = Ok r.
Proof.
  intros X m d r H c. unfold sign1_verify in H. fold c in H.
  apply verify_signature_inv in H as (alg & k & t & HA & HK & HT & H).
  apply sign1_structure_rfc in HT as (tbp & pl & HB & HL & ->).
  exists alg, k, tbp, pl. auto.
Qed.

Lemma signer_encode_rfc : forall X seed m s d v,
  signer_encode X seed (Some m) s (vopt d) = Ok v -> phdr s <> [] -> plain_protected m ->
  exists alg k p bp pl sig,
    get_attr s Algorithm = Ok alg /\ ckey s = Some k /\
    phdr_encoded s = Ok p /\ protected_field m bp /\ signed_payload (payload m) d pl /\
    alg_sign X seed alg k (Sig_structure bp p (aad s) pl) = Ok sig /\
    v = VList [VBytes p; VDict (uhdr s); VBytes sig].
Proof.
  intros X seed m s d v H HS HM. unfold signer_encode in H.
  apply bind_ok in H as (p & HP & H). apply bind_ok in H as (sig & HSg & E). injection E as <-.
  apply compute_signature_inv in HSg as (alg & k & t & HA & HK & HT & HSg).
  apply signer_structure_rfc in HT as (bp & sp & pl & HB & HSp & HL & ->); [|assumption|assumption].
  assert (sp = p) as -> by (destruct HSp as [_ E]; specialize (E HS); congruence).
  exists alg, k, p, bp, pl, sig. auto 8.
Qed.

Lemma signer_verify_rfc : forall X m s d r,
  signer_verify X (Some m) s (vopt d) = Ok r -> phdr s <> [] -> plain_protected m ->
  exists alg k p bp pl,
    get_attr s Algorithm = Ok alg /\ ckey s = Some k /\
    phdr_encoded s = Ok p /\ protected_field m bp /\ signed_payload (payload m) d pl /\
    alg_verify X alg k (Sig_structure bp p (aad s) pl) (vopt (payload s)) = Ok r.
Proof.
  intros X m s d r H HS HM. unfold signer_verify in H.
  apply verify_signature_inv in H as (alg & k & t & HA & HK & HT & H).
  apply signer_structure_rfc in HT as (bp & sp & pl & HB & HSp & HL & ->); [|assumption|assumption].
  exists alg, k, sp, bp, pl. destruct HSp as [_ E]. auto 8.
Qed.

Lemma enc_encrypt_rfc : forall X ctx c e, enc_encrypt X ctx c = Ok e ->
  exists alg k nonce p, get_attr c Algorithm = Ok alg /\ ckey c = Some k /\ get_nonce c = Ok nonce /\
    protected_field c p /\
    alg_encrypt X alg k nonce (vopt (payload c)) (Enc_structure ctx p (aad c)) = Ok e.
Proof.
  intros X ctx c e H. unfold enc_encrypt in H. destruct (ckey c) as [k|]; [|discriminate].
  apply bind_ok in H as (alg & HA & H). apply bind_ok in H as (nonce & HN & H).
  apply bind_ok in H as (u & _ & H). apply bind_ok in H as (u' & _ & H).
  apply bind_ok in H as (ad & HE & H). apply enc_structure_rfc in HE as (p & HP & ->).
  exists alg, k, nonce, p. auto.
Qed.

Lemma enc_decrypt_rfc : forall X ctx c e, enc_decrypt X ctx c = Ok e ->
  exists alg k nonce p, get_attr c Algorithm = Ok alg /\ ckey c = Some k /\ get_nonce c = Ok nonce /\
    protected_field c p /\
    alg_decrypt X alg k nonce (vopt (payload c)) (Enc_structure ctx p (aad c)) = Ok e.
Proof.
  intros X ctx c e H. unfold enc_decrypt in H.
  apply bind_ok in H as (alg & HA & H). apply bind_ok in H as (nonce & HN & H).
  destruct (ckey c) as [k|]; [|discriminate].
  apply bind_ok in H as (u & _ & H). apply bind_ok in H as (u' & _ & H).
  apply bind_ok in H as (ad & HE & H). apply enc_structure_rfc in HE as (p & HP & ->).
  exists alg, k, nonce, p. auto.
Qed.

Lemma mac_compute_rfc : forall X ctx c e, mac_compute X ctx c = Ok e ->
  exists alg k p pl, get_attr c Algorithm = Ok alg /\ ckey c = Some k /\
    protected_field c p /\ payload c = Some pl /\
    alg_compute_tag X alg k (MAC_structure ctx p (aad c) pl) = Ok e.
Proof.
  intros X ctx c e H. unfold mac_compute in H.
  apply bind_ok in H as (alg & HA & H). destruct (ckey c) as [k|]; [|discriminate].
  apply bind_ok in H as (u & _ & H). apply bind_ok in H as (u' & _ & H).
  apply bind_ok in H as (ad & HE & H). apply mac_structure_rfc in HE as (p & pl & HP & HL & ->).
  exists alg, k, p, pl. auto.
Qed.

Lemma mac_verify_rfc : forall X ctx c tag r, mac_verify X ctx c tag = Ok r ->
  exists alg k p pl, get_attr c Algorithm = Ok alg /\ ckey c = Some k /\
    protected_field c p /\ payload c = Some pl /\
    alg_verify_tag X alg k tag (MAC_structure ctx p (aad c) pl) = Ok r.
Proof.
  intros X ctx c tag r H. unfold mac_verify in H.
  apply bind_ok in H as (alg & HA & H). destruct (ckey c) as [k|]; [|discriminate].
  apply bind_ok in H as (u & _ & H). apply bind_ok in H as (u' & _ & H).
  apply bind_ok in H as (ad & HE & H). apply mac_structure_rfc in HE as (p & pl & HP & HL & ->).
  exists alg, k, p, pl. auto.
Qed.

Lemma enc0_encode_rfc : forall X c tag b, enc0_encode X c tag true = Ok b ->
  exists p u ct, phdr_encoded c = Ok p /\ dumps_msg c (VDict (uhdr c)) = Ok u /\
    enc_encrypt X "Encrypt0" c = Ok ct /\
    b = maybe_tag tag 16 (rfc_array [rfc_bstr p; u; rfc_bstr ct]).
Proof.
  intros X c tag b H. unfold enc0_encode in H. apply bind_ok in H as (p & HP & H).
  apply bind_ok in H as (body & HB & H). apply bind_ok in HB as (ct & HE & E). injection E as <-.
  apply emit_layout in H as (items & HF & ->).
  inversion HF as [|v1 x1 l1 m1 H1 HF1]; subst.
  inversion HF1 as [|v2 x2 l2 m2 H2 HF2]; subst. inversion HF2 as [|v3 x3 l3 m3 H3 HF3]; subst.
  inversion HF3; subst. apply (dumps_bytes (HMsg (tstr c))) in H1, H3. subst. exists p, x2, ct. auto.
Qed.

Lemma mac0_encode_rfc : forall X m tag b, snd (mac0_encode X m tag true) = Ok b ->
  let c := m0_core m in
  exists p u t, phdr_encoded c = Ok p /\ dumps_msg c (VDict (uhdr c)) = Ok u /\
    mac_compute X "MAC0" c = Ok t /\
    b = maybe_tag tag 17 (rfc_array [rfc_bstr p; u; rfc_opt_bstr (payload c); rfc_bstr t]).
Proof.
  intros X m tag b H c. unfold mac0_encode in H. fold c in H.
  destruct (phdr_encoded c) as [p|e]; [|discriminate].
  unfold mac0_compute_tag in H. fold c in H.
  destruct (mac_compute X "MAC0" c) as [t|e]; [|discriminate]. cbn [snd] in H.
  apply emit_base in H as (u & xs & HU & HF & ->).
  inversion HF as [|v1 x1 l1 m1 H1 HF1]; subst. inversion HF1; subst. apply (dumps_bytes (HMsg (tstr c))) in H1. subst.
  exists p, u, t. auto.
Qed.

Lemma sign_encode_rfc : forall X seed m tag d b,
  sign_encode X seed m tag d = Ok b -> sm_signers m <> [] ->
  let c := sm_core m in
  exists p u vs ss, phdr_encoded c = Ok p /\ dumps_msg c (VDict (uhdr c)) = Ok u /\
    signers_encode X seed (Some c) (sm_signers m) d = Ok vs /\
    Forall2 (fun v x => dumps_msg c v = Ok x) vs ss /\
    b = maybe_tag tag 98 (rfc_array [rfc_bstr p; u; rfc_opt_bstr (payload c); rfc_array ss]).
Proof.
  intros X seed m tag d b H HN c. unfold sign_encode in H. fold c in H.
  apply bind_ok in H as (p & HP & H). apply bind_ok in H as (items & HI & H).
  destruct (sm_signers m) as [|s0 sr] eqn:ES; [congruence|]. rewrite <- ES in *.
  apply bind_ok in HI as (vs & HV & E). injection E as <-.
  apply emit_base in H as (u & xs & HU & HF & ->).
  inversion HF as [|v1 x1 l1 m1 H1 HF1]; subst. inversion HF1; subst.
  apply dumps_list in H1 as (ss & HSs & ->).
  exists p, u, vs, ss. auto.
Qed.
