(** C125: the length of an encoded message. *)
From Coq Require Import NArith ZArith Bool String Lia.
From Coq Require Import Init.Byte List.
From Verif Require Import Bytes Value Cbor Registry Crypto Keys Algorithms Headers Messages Recipients Toy SpecCrypto SpecAlg SpecIana SpecRfc SpecStruct SpecMsg SpecWire SpecLen.
From Verif Require Import BytesProofs ValueProofs StructProofs AlgProofs MiscProofs WireProofs AcceptProofs PropWire PropHdr PropMsg PropAccept.
Import ListNotations.
Local Open Scope result_scope.
Local Open Scope list_scope.

(** ** Sizes of items *)

Lemma blen_app : forall a b, blen (a ++ b) = (blen a + blen b)%N.
Proof. intros a b. unfold blen. rewrite app_length. lia. Qed.

Lemma blen_head : forall m n, blen (rfc_head m n) = (field n - n)%N.
Proof.
  intros m n. unfold blen, rfc_head, field. rewrite map_length.
  destruct (N.ltb n 24); [cbn [length]; lia|]. destruct (N.ltb n (2 ^ 8)); [cbn [length]; lia|].
  destruct (N.ltb n (2 ^ 16)); [cbn [length]; lia|]. destruct (N.ltb n (2 ^ 32)); cbn [length]; lia.
Qed.

Lemma field_le : forall n, (n <= field n)%N.
Proof. intros n. unfold field. lia. Qed.

Lemma blen_bstr : forall b, blen (rfc_bstr b) = field (blen b).
Proof. intros b. unfold rfc_bstr. rewrite blen_app, blen_head. fold (blen b). pose proof (field_le (blen b)). lia. Qed.

Lemma blen_opt : forall o, blen (rfc_opt_bstr o) = opt_field o.
Proof. intros [b|]; [apply blen_bstr|reflexivity]. Qed.

Definition total (xs : list bytes) : N := fold_right (fun x n => (blen x + n)%N) 0%N xs.

Lemma blen_concat : forall xs, blen (concat xs) = total xs.
Proof. induction xs as [|x xs IH]; [reflexivity|]. cbn [concat total fold_right]. rewrite blen_app, IH. reflexivity. Qed.

Lemma blen_array : forall xs, blen (rfc_array xs) = (field (N.of_nat (length xs)) - N.of_nat (length xs) + total xs)%N.
Proof. intros xs. unfold rfc_array. rewrite blen_app, blen_head, blen_concat. reflexivity. Qed.

Lemma blen_tag : forall tag t x, blen (maybe_tag tag t x) = ((if tag then field t - t else 0) + blen x)%N.
Proof. intros [] t x; cbn [maybe_tag]; [|lia]. unfold rfc_tag. rewrite blen_app, blen_head. reflexivity. Qed.

Lemma protected_bytes_unique : forall c c' p p', same_shape c c' -> protected_bytes c p -> protected_bytes c' p' -> p = p'.
Proof.
  intros c c' p p' (H1 & H2 & H3 & H4 & _) HP HP'. unfold protected_bytes in *. rewrite <- H1, <- H2, <- H4 in HP'. destruct (phdr_raw c); [congruence|].
  destruct HP as [A1 A2], HP' as [B1 B2]. destruct (phdr c) as [|e l]; [rewrite (A1 eq_refl), (B1 eq_refl); reflexivity|].
  eapply rfc_item_unique; [apply A2|apply B2]; discriminate.
Qed.

Lemma unprotected_unique : forall c c' u u', same_shape c c' -> rfc_item (tstr c) (VDict (uhdr c)) u -> rfc_item (tstr c') (VDict (uhdr c')) u' -> u = u'.
Proof. intros c c' u u' (H1 & H2 & H3 & H4 & _) HU HU'. rewrite <- H3, <- H4 in HU'. eapply rfc_item_unique; eassumption. Qed.

Lemma shape_payload : forall c c', same_shape c c' -> opt_field (payload c) = opt_field (payload c').
Proof. intros c c' (_ & _ & _ & _ & H). destruct (payload c) as [p|], (payload c') as [p'|]; try contradiction; [|reflexivity]. unfold opt_field, blen. rewrite H. reflexivity. Qed.

Lemma shape_attr : forall c c' a, same_shape c c' -> get_attr c a = get_attr c' a.
Proof. intros c c' a (H1 & _ & H3 & _ & _). unfold get_attr, get_attr_default. rewrite H1, H3. reflexivity. Qed.

(** ** Tags, ciphertexts, signatures *)

Lemma kind_def : forall a t, alg_kind a = Some t -> exists z, a = alg z /\ In (z, t) alg_defs.
Proof.
  intros a t H. destruct a; try discriminate H. destruct c as [[] z]; try discriminate H. cbn [alg_kind] in H. destruct (find _ alg_defs) as [[z' t']|] eqn:E; [|discriminate H].
  cbn [snd] in H. injection H as <-. apply find_some in E as [E1 E2]. cbn [fst] in E2. apply Z.eqb_eq in E2. subst z'. exists z. split; [reflexivity|exact E1].
Qed.

Lemma tag_length : forall X a k data t, law_hmac_len X -> law_aes_len X -> data <> [] -> alg_compute_tag X a k data = Ok t ->
  exists z n, a = alg z /\ In (z, n) mac_tag_lengths /\ blen t = n.
Proof.
  intros X a k data t LH LA HD H. destruct (alg_kind a) as [ty|] eqn:EK; [|unfold alg_compute_tag in H; rewrite EK in H; discriminate H].
  destruct (kind_def _ _ EK) as (z & -> & HI). exists z.
  assert (HC : (exists h n, In (z, (h, n)) rfc_hmacs) \/ (exists n, In (z, n) rfc_aes_macs)).
  { unfold alg_compute_tag in H. rewrite EK in H. clear EK. unfold alg_defs in HI. cbn [In] in HI.
    repeat (destruct HI as [HI|HI]; [injection HI as <- <-; try discriminate H; first [left; eexists; eexists; cbn [rfc_hmacs In]; tauto|right; eexists; cbn [rfc_aes_macs In]; tauto]|]). destruct HI. }
  destruct HC as [(h & n & HC)|(n & HC)].
  - destruct (hmac_tag _ _ _ _ _ _ _ HC LH H) as (b & r & _ & HL & _). exists (N.of_nat n). split; [reflexivity|]. split; [|unfold blen; rewrite HL; reflexivity].
    cbn [rfc_hmacs In] in HC. repeat (destruct HC as [HC|HC]; [injection HC as <- <- <-; cbn [mac_tag_lengths In N.of_nat Pos.of_succ_nat]; tauto|]). destruct HC.
  - destruct (cbc_tag _ _ _ _ _ _ HC LA HD H) as (b & bl & r & _ & _ & HL & _). exists (N.of_nat n). split; [reflexivity|]. split; [|unfold blen; rewrite HL; reflexivity].
    cbn [rfc_aes_macs In] in HC. repeat (destruct HC as [HC|HC]; [injection HC as <- <-; cbn [mac_tag_lengths In N.of_nat Pos.of_succ_nat]; tauto|]). destruct HC.
Qed.

Lemma seal_length : forall X a k n p ad ct, law_seal_size X -> alg_encrypt X a k n (vopt p) ad = Ok ct ->
  exists z t pl, a = alg z /\ In (z, t) aead_tag_lengths /\ p = Some pl /\ blen ct = (blen pl + t)%N.
Proof.
  intros X a k n p ad ct [LG LC] H. destruct (alg_kind a) as [ty|] eqn:EK; [|unfold alg_encrypt in H; rewrite EK in H; discriminate H].
  destruct (kind_def _ _ EK) as (z & -> & HI). exists z. unfold alg_encrypt in H. rewrite EK in H. clear EK. unfold alg_defs in HI. cbn [In] in HI.
  assert (HG : forall l, ty = AGcm l -> p <> None /\ forall pl, p = Some pl -> blen ct = (blen pl + 16)%N).
  { intros l ->. apply bind_ok in H as (b & _ & H). apply bind_ok in H as (nb & _ & H). apply bind_ok in H as (d & HP & H). apply LG in H. split; [intros ->; discriminate HP|].
    intros pl ->. injection HP as <-. unfold blen. rewrite H, Nat2N.inj_add. reflexivity. }
  assert (HK : forall t l, ty = ACcm t l -> p <> None /\ forall pl, p = Some pl -> blen ct = (blen pl + N.of_nat t)%N).
  { intros t l ->. apply bind_ok in H as (b & _ & H). apply bind_ok in H as (nb & _ & H). apply bind_ok in H as (d & HP & H). apply LC in H. split; [intros ->; discriminate HP|].
    intros pl ->. injection HP as <-. unfold blen. rewrite H, Nat2N.inj_add. reflexivity. }
  assert (HT : exists t, In (z, t) aead_tag_lengths /\ p <> None /\ forall pl, p = Some pl -> blen ct = (blen pl + t)%N).
  { repeat (destruct HI as [HI|HI]; [injection HI as <- <-; try discriminate H; eexists; (split; [|first [exact (HG _ eq_refl)|exact (HK _ _ eq_refl)]]); cbn [aead_tag_lengths In N.of_nat Pos.of_succ_nat]; tauto|]). destruct HI. }
  destruct HT as (t & H1 & H2 & H3). destruct p as [pl|]; [|elim H2; reflexivity]. exists t, pl. auto.
Qed.

Lemma sign_length : forall X a k k' seed seed' d d' s s', law_sig_size X -> same_group k k' ->
  alg_sign X seed a k d = Ok s -> alg_sign X seed' a k' d' = Ok s' -> length s = length s'.
Proof.
  intros X a k k' seed seed' d d' s s' (LE & LD & LR) [HC HN] H H'. unfold alg_sign in *. destruct (alg_kind a) as [[]|]; try discriminate H.
  - apply bind_ok in H as (q & HQ & H). apply bind_ok in H' as (q' & HQ' & H'). refine (LR _ _ _ _ _ _ _ _ _ _ _ H H').
    assert (G : forall kk qq, rsa_private_numbers kk = Ok qq -> attr_int kk PN = Ok (rsa_n (rsa_public qq))).
    { intros kk qq E. unfold rsa_private_numbers in E. apply bind_ok in E as (pub & EP & E). unfold rsa_public_numbers in EP. apply bind_ok in EP as (e & _ & EP). apply bind_ok in EP as (nn & EN & EP). injection EP as <-.
      repeat (apply bind_ok in E as (? & _ & E)). injection E as <-. exact EN. }
    apply G in HQ. apply G in HQ'. unfold attr_int in *. rewrite HN in HQ. rewrite HQ in HQ'. injection HQ' as E. exact E.
  - apply bind_ok in H as (q & HQ & H). discriminate H.
  - apply bind_ok in H as (q & HQ & H). apply bind_ok in H' as (q' & HQ' & H'). exact (LE _ _ _ _ _ _ _ _ H H').
  - apply bind_ok in H as (q & HQ & H). apply bind_ok in H' as (q' & HQ' & H'). unfold ed_curve in *. rewrite HC in HQ. rewrite HQ in HQ'. injection HQ' as <-.
    apply bind_ok in H as (x & _ & H). apply bind_ok in H' as (x' & _ & H'). exact (LD _ _ _ _ _ _ _ H H').
Qed.

Ltac sizes := repeat (rewrite ?blen_tag, ?blen_array, ?blen_app, ?blen_bstr, ?blen_opt; cbn [total fold_right length app]).

(** ** C125. The length of a message *)

Theorem C125_mac0_size : forall X m tag b, law_hmac_len X -> law_aes_len X -> snd (mac0_encode X m tag true) = Ok b ->
  let c := m0_core m in
  exists z n p u, get_attr c Algorithm = Ok (alg z) /\ In (z, n) mac_tag_lengths /\ protected_bytes c p /\ rfc_item (tstr c) (VDict (uhdr c)) u /\
    blen b = ((if tag then 1 else 0) + 1 + field (blen p) + blen u + opt_field (payload c) + field n)%N.
Proof.
  intros X m tag b LH LA H c. destruct (C66_mac0 _ _ _ _ _ H) as (p & u & t & HP & HU & (x & HX & ->) & ->). fold c in HP, HU, HX |- *.
  unfold mac_compute in HX. apply bind_ok in HX as (a & HA & HX). destruct (ckey c) as [k|]; [|discriminate HX].
  apply bind_ok in HX as (? & _ & HX). apply bind_ok in HX as (? & _ & HX). apply bind_ok in HX as (data & HD & HX).
  destruct (tag_length _ _ _ _ _ LH LA (mac_structure_nonempty _ _ _ HD) HX) as (z & n & -> & HI & HN).
  exists z, n, p, u. split; [exact HA|]. split; [exact HI|]. split; [exact HP|]. split; [exact HU|].
  sizes. rewrite HN. change (field (N.of_nat 4) - N.of_nat 4)%N with 1%N. change (field 17 - 17)%N with 1%N. destruct tag; lia.
Qed.
Print Assumptions C125_mac0_size.

(** The ciphertext is as long as the plaintext and the tag. *)
Theorem C125_enc0_size : forall X c tag b, law_seal_size X -> enc0_encode X c tag true = Ok b ->
  exists z n p u pl, get_attr c Algorithm = Ok (alg z) /\ In (z, n) aead_tag_lengths /\ protected_bytes c p /\ rfc_item (tstr c) (VDict (uhdr c)) u /\
    payload c = Some pl /\ blen b = ((if tag then 1 else 0) + 1 + field (blen p) + blen u + field (blen pl + n))%N.
Proof.
  intros X c tag b LS H. destruct (C66_enc0 _ _ _ _ _ H) as (p & u & t & HP & HU & (x & HX & ->) & ->).
  unfold enc_encrypt in HX. destruct (ckey c) as [k|]; [|discriminate HX]. apply bind_ok in HX as (a & HA & HX). apply bind_ok in HX as (nn & _ & HX).
  apply bind_ok in HX as (? & _ & HX). apply bind_ok in HX as (? & _ & HX). apply bind_ok in HX as (ad & _ & HX).
  destruct (seal_length _ _ _ _ _ _ _ LS HX) as (z & n & pl & -> & HI & HPl & HN).
  exists z, n, p, u, pl. split; [exact HA|]. split; [exact HI|]. split; [exact HP|]. split; [exact HU|]. split; [exact HPl|].
  sizes. rewrite HN. change (field (N.of_nat 3) - N.of_nat 3)%N with 1%N. change (field 16 - 16)%N with 1%N. destruct tag; lia.
Qed.
Print Assumptions C125_enc0_size.

Theorem C125_sign1_size : forall X seed m tag d b, sign1_encode X seed m tag true (vopt d) = Ok b ->
  let c := s1_core m in
  exists a k p u t s, get_attr c Algorithm = Ok a /\ ckey c = Some k /\ protected_bytes c p /\ rfc_item (tstr c) (VDict (uhdr c)) u /\ alg_sign X seed a k t = Ok s /\
    blen b = ((if tag then 1 else 0) + 1 + field (blen p) + blen u + opt_field (payload c) + field (blen s))%N.
Proof.
  intros X seed m tag d b H c. destruct (C66_sign1 _ _ _ _ _ _ _ H) as (p & u & t & HP & HU & (a & k & tbp & pl & sig & HA & HK & _ & _ & HS & ->) & ->). fold c in HP, HU, HA, HK, HS |- *.
  exists a, k, p, u, (Sig_structure1 tbp (aad c) pl), sig. split; [exact HA|]. split; [exact HK|]. split; [exact HP|]. split; [exact HU|]. split; [exact HS|].
  sizes. change (field (N.of_nat 4) - N.of_nat 4)%N with 1%N. change (field 18 - 18)%N with 1%N. destruct tag; lia.
Qed.
Print Assumptions C125_sign1_size.

(** Two messages with the same headers and payloads of the same length are encoded in the same
    number of bytes, whatever the payloads, the external data, the keys and the random numbers
    are. *)
Theorem C125_mac0 : forall X m m' tag b b', law_hmac_len X -> law_aes_len X -> same_shape (m0_core m) (m0_core m') ->
  snd (mac0_encode X m tag true) = Ok b -> snd (mac0_encode X m' tag true) = Ok b' -> length b = length b'.
Proof.
  intros X m m' tag b b' LH LA HS H H'. destruct (C125_mac0_size _ _ _ _ LH LA H) as (z & n & p & u & HA & HI & HP & HU & HB).
  destruct (C125_mac0_size _ _ _ _ LH LA H') as (z' & n' & p' & u' & HA' & HI' & HP' & HU' & HB').
  rewrite <- (shape_attr _ _ _ HS), HA in HA'. injection HA' as <-. rewrite <- (protected_bytes_unique _ _ _ _ HS HP HP'), <- (unprotected_unique _ _ _ _ HS HU HU'), <- (shape_payload _ _ HS) in HB'.
  assert (HN : n = n') by (clear - HI HI'; cbn [mac_tag_lengths In] in HI, HI'; repeat (destruct HI as [HI|HI]; [injection HI as <- <-; repeat (destruct HI' as [HI'|HI']; [first [discriminate HI'|injection HI' as <-; reflexivity]|]); destruct HI'|]); destruct HI).
  rewrite <- HN, <- HB in HB'. unfold blen in HB'. lia.
Qed.
Print Assumptions C125_mac0.

Theorem C125_enc0 : forall X c c' tag b b', law_seal_size X -> same_shape c c' ->
  enc0_encode X c tag true = Ok b -> enc0_encode X c' tag true = Ok b' -> length b = length b'.
Proof.
  intros X c c' tag b b' LS HS H H'. destruct (C125_enc0_size _ _ _ _ LS H) as (z & n & p & u & pl & HA & HI & HP & HU & HPl & HB).
  destruct (C125_enc0_size _ _ _ _ LS H') as (z' & n' & p' & u' & pl' & HA' & HI' & HP' & HU' & HPl' & HB').
  rewrite <- (shape_attr _ _ _ HS), HA in HA'. injection HA' as <-. rewrite <- (protected_bytes_unique _ _ _ _ HS HP HP'), <- (unprotected_unique _ _ _ _ HS HU HU') in HB'.
  assert (HN : n = n') by (clear - HI HI'; cbn [aead_tag_lengths In] in HI, HI'; repeat (destruct HI as [HI|HI]; [injection HI as <- <-; repeat (destruct HI' as [HI'|HI']; [first [discriminate HI'|injection HI' as <-; reflexivity]|]); destruct HI'|]); destruct HI).
  destruct HS as (_ & _ & _ & _ & HL). rewrite HPl, HPl' in HL. assert (HE : blen pl = blen pl') by (unfold blen; rewrite HL; reflexivity).
  rewrite <- HN, <- HE, <- HB in HB'. unfold blen in HB'. lia.
Qed.
Print Assumptions C125_enc0.

(** Signatures are that long on the same curve or with the same modulus. *)
Theorem C125_sign1 : forall X seed seed' m m' tag d d' b b', law_sig_size X -> same_shape (s1_core m) (s1_core m') -> same_groups (s1_core m) (s1_core m') ->
  sign1_encode X seed m tag true (vopt d) = Ok b -> sign1_encode X seed' m' tag true (vopt d') = Ok b' -> length b = length b'.
Proof.
  intros X seed seed' m m' tag d d' b b' LS HS HG H H'. destruct (C125_sign1_size _ _ _ _ _ _ H) as (a & k & p & u & t & s & HA & HK & HP & HU & HX & HB).
  destruct (C125_sign1_size _ _ _ _ _ _ H') as (a' & k' & p' & u' & t' & s' & HA' & HK' & HP' & HU' & HX' & HB').
  rewrite <- (shape_attr _ _ _ HS), HA in HA'. injection HA' as <-. rewrite <- (protected_bytes_unique _ _ _ _ HS HP HP'), <- (unprotected_unique _ _ _ _ HS HU HU'), <- (shape_payload _ _ HS) in HB'.
  pose proof (sign_length _ _ _ _ _ _ _ _ _ _ LS (HG _ _ HK HK') HX HX') as HL. assert (HE : blen s = blen s') by (unfold blen; rewrite HL; reflexivity).
  rewrite <- HE, <- HB in HB'. unfold blen in HB'. lia.
Qed.
Print Assumptions C125_sign1.

Lemma signer_sizes : forall X names c c' d d' ss ss' xs xs', law_sig_size X ->
  Forall2 (fun s s' => same_shape s s' /\ same_groups s s') ss ss' ->
  Forall2 (fun s x => exists sp su sg seed', protected_bytes s sp /\ rfc_item names (VDict (uhdr s)) su /\
      compute_signature X seed' s (signer_structure (Some c) s d) = Ok sg /\ x = rfc_array [rfc_bstr sp; su; rfc_bstr sg]) ss xs ->
  Forall2 (fun s x => exists sp su sg seed', protected_bytes s sp /\ rfc_item names (VDict (uhdr s)) su /\
      compute_signature X seed' s (signer_structure (Some c') s d') = Ok sg /\ x = rfc_array [rfc_bstr sp; su; rfc_bstr sg]) ss' xs' ->
  map blen xs = map blen xs'.
Proof.
  intros X names c c' d d' ss ss' xs xs' LS HF. revert xs xs'. induction HF as [|s s' ss ss' [HS HG] HF IH]; intros xs xs' H H'; inversion H; inversion H'; subst; [reflexivity|].
  cbn [map]. f_equal; [|apply IH; assumption]. rename H2 into A, H7 into B. destruct A as (sp & su & sg & sd & HP & HU & HC & ->), B as (sp' & su' & sg' & sd' & HP' & HU' & HC' & ->).
  rewrite <- (protected_bytes_unique _ _ _ _ HS HP HP'). assert (HE : su = su') by (destruct HS as (_ & _ & E & _); rewrite <- E in HU'; eapply rfc_item_unique; eassumption). rewrite <- HE.
  unfold compute_signature in HC, HC'. apply bind_ok in HC as (a & HA & HC). apply bind_ok in HC' as (a' & HA' & HC'). rewrite <- (shape_attr _ _ _ HS), HA in HA'. injection HA' as <-.
  apply bind_ok in HC as (k & HK & HC). apply bind_ok in HC' as (k' & HK' & HC').
  apply key_verification_key in HK. apply key_verification_key in HK'. apply bind_ok in HC as (? & _ & HC). apply bind_ok in HC' as (? & _ & HC'). apply bind_ok in HC as (? & _ & HC). apply bind_ok in HC' as (? & _ & HC').
  pose proof (sign_length _ _ _ _ _ _ _ _ _ _ LS (HG _ _ HK HK') HC HC') as HL. sizes. unfold blen. rewrite HL. reflexivity.
Qed.

Theorem C125_sign : forall X seed seed' m m' tag d d' b b', law_sig_size X -> same_shape (sm_core m) (sm_core m') ->
  Forall2 (fun s s' => same_shape s s' /\ same_groups s s') (sm_signers m) (sm_signers m') ->
  sign_encode X seed m tag d = Ok b -> sign_encode X seed' m' tag d' = Ok b' -> length b = length b'.
Proof.
  intros X seed seed' m m' tag d d' b b' LS HS HF H H'. destruct (C66_sign _ _ _ _ _ _ H) as (p & u & xs & HP & HU & HX & ->).
  destruct (C66_sign _ _ _ _ _ _ H') as (p' & u' & xs' & HP' & HU' & HX' & ->).
  rewrite <- (protected_bytes_unique _ _ _ _ HS HP HP'), <- (unprotected_unique _ _ _ _ HS HU HU'). assert (HT : tstr (sm_core m) = tstr (sm_core m')) by apply HS. rewrite <- HT in HX'.
  pose proof (signer_sizes _ _ _ _ _ _ _ _ _ _ LS HF HX HX') as HE.
  assert (HR : map blen (recipients_field xs) = map blen (recipients_field xs')).
  { destruct xs as [|x xs], xs' as [|x' xs']; try discriminate HE; [reflexivity|]. cbn [recipients_field map]. f_equal. rewrite !blen_array.
    assert (L : length (x :: xs) = length (x' :: xs')) by (rewrite <- (map_length blen), HE, map_length; reflexivity). rewrite L. f_equal.
    clear - HE. revert HE. generalize (x :: xs) (x' :: xs'). induction l as [|y l IH]; intros [|y' l'] HE; try discriminate HE; [reflexivity|]. cbn [map] in HE. injection HE as E1 E2. cbn [total fold_right]. fold (total l) (total l'). rewrite E1, (IH _ E2). reflexivity. }
  enough (E : forall r r', map blen r = map blen r' -> blen (maybe_tag tag 98 (rfc_array ([rfc_bstr p; u; rfc_opt_bstr (payload (sm_core m))] ++ r))) = blen (maybe_tag tag 98 (rfc_array ([rfc_bstr p; u; rfc_opt_bstr (payload (sm_core m'))] ++ r')))).
  { specialize (E _ _ HR). unfold blen in E. lia. }
  intros r r' E. assert (L : length r = length r') by (rewrite <- (map_length blen), E, map_length; reflexivity). rewrite !blen_tag, !blen_array. cbn [app length]. rewrite L. f_equal. f_equal.
  cbn [total fold_right]. rewrite !blen_opt, (shape_payload _ _ HS). f_equal. f_equal. f_equal. fold (total r) (total r').
  clear - E. revert r' E. induction r as [|y l IH]; intros [|y' l'] HE; try discriminate HE; [reflexivity|]. cbn [map] in HE. injection HE as E1 E2. cbn [total fold_right]. fold (total l) (total l'). rewrite E1, (IH _ E2). reflexivity.
Qed.
Print Assumptions C125_sign.

(** ** The toy primitives keep the laws *)

Lemma toy_sig_size : law_sig_size toy.
Proof. repeat split; intros; cbn [x_ecdsa_sign x_ed_sign x_rsa_sign toy] in *; repeat match goal with H : Ok _ = Ok _ |- _ => injection H as <- end; rewrite !mix_length; reflexivity. Qed.
Lemma toy_seal_size : law_seal_size toy.
Proof. split; intros; cbn [x_gcm_enc x_ccm_enc toy] in *; unfold toy_seal in *; match goal with H : Ok _ = Ok _ |- _ => injection H as <- end; rewrite app_length, mix_length; reflexivity. Qed.

(** ** Examples *)

(** Another payload of the same length, other external data and another key: as long. A longer
    payload is not. *)
Definition ex_len_key : key := Key KSym [(VClass KpKty, KtySymmetric); (VClass SymKpK, VBytes (repeat x51 16))] [].
Definition ex_len (a : pyval) : core := ex_built a false ex_sym.
Definition ex_len_other (a : pyval) (pl : bytes) : core := other pl (moved [x01; x02] (ex_built a false ex_len_key)).
Example C125_example : same_shape (ex_len (alg 5)) (ex_len_other (alg 5) (map (fun _ => x33) (match payload (ex_len (alg 5)) with Some p => p | None => [] end))) /\
  (exists p, payload (ex_len (alg 5)) = Some p /\ p <> map (fun _ => x33) p) /\
  exists b b' b'', snd (mac0_encode toy (Mac0 (ex_len (alg 5)) (VBytes [])) true true) = Ok b /\
    snd (mac0_encode toy (Mac0 (ex_len_other (alg 5) (map (fun _ => x33) (match payload (ex_len (alg 5)) with Some p => p | None => [] end))) (VBytes [])) true true) = Ok b' /\
    snd (mac0_encode toy (Mac0 (ex_len_other (alg 5) (repeat x33 200)) (VBytes [])) true true) = Ok b'' /\
    bytes_eqb b b' = false /\ length b = length b' /\ Nat.ltb (length b') (length b'') = true.
Proof.
  split; [vm_compute; repeat split; reflexivity|]. split; [eexists; split; [vm_compute; reflexivity|]; discriminate|].
  eexists; eexists; eexists. split; [vm_compute; reflexivity|]. split; [vm_compute; reflexivity|]. split; [vm_compute; reflexivity|]. split; [vm_compute; reflexivity|]. split; vm_compute; reflexivity.
Qed.

Example C125_enc0_example : let c := ex_len (alg 1) in let c' := ex_len_other (alg 1) (bs "seven") in same_shape c c' /\
  exists b b', enc0_encode toy c true true = Ok b /\ enc0_encode toy c' true true = Ok b' /\ bytes_eqb b b' = false /\ length b = length b'.
Proof.
  cbv zeta. split; [vm_compute; repeat split; reflexivity|]. eexists; eexists.
  split; [vm_compute; reflexivity|]. split; [vm_compute; reflexivity|]. split; vm_compute; reflexivity.
Qed.

(** Two private keys on the same curve. *)
Definition ex_len_ec2 : key :=
  Key KEC2 [(VClass KpKty, KtyEC2); (VClass EC2KpCurve, VClass (Cls FCrv 1)); (VClass EC2KpX, VBytes [x19]); (VClass EC2KpY, VBytes [x1a]); (VClass EC2KpD, VBytes [x19])] [].
Definition ex_signer (k : key) (pl : bytes) : core := other pl (ex_built (alg (-7)) false k).
Example C125_sign_example : let c := ex_signer ex_ec2 (bs "hello") in let c' := ex_signer ex_len_ec2 (bs "seven") in
  same_shape c c' /\ same_groups c c' /\ ckey c <> ckey c' /\
  (exists b b', sign1_encode toy 0 (Sign1 c (VBytes [])) true true VNone = Ok b /\ sign1_encode toy 5 (Sign1 c' (VBytes [])) true true VNone = Ok b' /\
     bytes_eqb b b' = false /\ length b = length b') /\
  exists b b', sign_encode toy 0 (SignMsg c [c; c]) true VNone = Ok b /\ sign_encode toy 5 (SignMsg c' [c'; c']) true VNone = Ok b' /\
     bytes_eqb b b' = false /\ length b = length b'.
Proof.
  cbv zeta. split; [vm_compute; repeat split; reflexivity|]. split.
  - intros k k' H H'. assert (E : k = ex_ec2) by (vm_compute in H; injection H as <-; reflexivity). assert (E' : k' = ex_len_ec2) by (vm_compute in H'; injection H' as <-; reflexivity). subst. split; reflexivity.
  - split; [vm_compute; discriminate|]. split.
    + eexists; eexists. split; [vm_compute; reflexivity|]. split; [vm_compute; reflexivity|]. split; vm_compute; reflexivity.
    + eexists; eexists. split; [vm_compute; reflexivity|]. split; [vm_compute; reflexivity|]. split; vm_compute; reflexivity.
Qed.
