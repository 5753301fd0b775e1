(** Lemmas about algorithms: MAC tags (C09), key sizes (C52, C53), curves (C54). *)
From Coq Require Import NArith ZArith Bool String Lia.
From Coq Require Import Init.Byte List.
From Verif Require Import Bytes BytesProofs Value ValueProofs Cbor Registry Crypto Keys Algorithms Headers Messages
  CborProofs StructProofs SpecCrypto SpecAlg KeyProofs.
Import ListNotations.
Local Open Scope nat_scope.

(** ** Blocks *)

Lemma chunks_spec : forall f l, length l <= f -> length l mod 16 = 0 ->
  concat (chunks f l) = l /\ Forall (fun b => length b = 16) (chunks f l).
Proof.
  induction f as [|f IH]; intros l HL HM.
  - destruct l; [split; [reflexivity|constructor]|cbn [length] in HL; lia].
  - cbn [chunks]. destruct l as [|x l]; [split; [reflexivity|constructor]|].
    set (m := x :: l) in *. assert (HP : 0 < length m) by (unfold m; cbn [length]; lia).
    assert (HG : 16 <= length m).
    { destruct (le_lt_dec 16 (length m)) as [H|H]; [assumption|]. rewrite Nat.mod_small in HM by assumption. lia. }
    destruct (IH (skipn 16 m)) as [H1 H2].
    + rewrite skipn_length. lia.
    + rewrite skipn_length. replace (length m) with (length m - 16 + 1 * 16) in HM by lia.
      rewrite Nat.mod_add in HM by lia. assumption.
    + split.
      * cbn [concat]. rewrite H1. apply firstn_skipn.
      * constructor; [|assumption]. rewrite firstn_length. lia.
Qed.

Lemma xor_bytes_xor : forall a b, xor_bytes a b = xor a b.
Proof.
  unfold xor_bytes. induction a as [|x a IH]; intros [|y b]; cbn [combine map xor]; try reflexivity.
  rewrite IH. reflexivity.
Qed.

Lemma xor_length : forall a b, length (xor a b) = Nat.min (length a) (length b).
Proof. induction a as [|x a IH]; intros [|y b]; cbn [xor length]; try reflexivity. rewrite IH. reflexivity. Qed.

Lemma cbc_last : forall E blocks iv, blocks <> [] ->
  exists pre, concat (cbc E iv blocks) = pre ++ fold_left (fun iv b => E (xor iv b)) blocks iv.
Proof.
  intros E. induction blocks as [|b r IH]; intros iv HN; [elim HN; reflexivity|].
  cbn [cbc concat fold_left]. rewrite xor_bytes_xor. destruct r as [|b' r].
  - exists []. cbn [cbc concat fold_left]. rewrite app_nil_r. reflexivity.
  - destruct (IH (E (xor iv b)) ltac:(discriminate)) as [pre HP]. rewrite HP.
    exists (E (xor iv b) ++ pre). rewrite <- app_assoc. reflexivity.
Qed.

Lemma cbc_mac_length : forall E blocks, (forall b, length b = 16 -> length (E b) = 16) ->
  Forall (fun b => length b = 16) blocks -> forall iv, length iv = 16 ->
  length (fold_left (fun iv b => E (xor iv b)) blocks iv) = 16.
Proof.
  intros E blocks HE HF. induction HF as [|b r HB HF IH]; intros iv HI; [assumption|].
  cbn [fold_left]. apply IH. apply HE. rewrite xor_length, HI, HB. reflexivity.
Qed.

Lemma last_n_app : forall pre m, length m = 16 -> last_n 16 (pre ++ m) = m.
Proof.
  intros pre m H. unfold last_n. rewrite app_length, H. replace (length pre + 16 - 16) with (length pre) by lia.
  rewrite skipn_app, skipn_all, Nat.sub_diag. reflexivity.
Qed.

Lemma mid_n_app : forall pre m, length m = 16 -> last_n 8 (drop_last_n 8 (pre ++ m)) = firstn 8 m.
Proof.
  intros pre m H. unfold last_n, drop_last_n. rewrite app_length, H.
  replace (length pre + 16 - 8) with (length pre + 8) by lia. rewrite firstn_app_2.
  rewrite app_length, firstn_length, H. replace (length pre + Nat.min 8 16 - 8) with (length pre) by (cbn; lia).
  rewrite skipn_app, skipn_all, Nat.sub_diag. reflexivity.
Qed.

Lemma prefix_of_firstn : forall n (m : bytes), exists rest, m = firstn n m ++ rest.
Proof. intros n m. exists (skipn n m). symmetry. apply firstn_skipn. Qed.

Section WithX.
Variable X : crypto.

Lemma attr_bytes_secret : forall k b, attr_bytes k PK = Ok b -> secret k b.
Proof.
  intros k b H. unfold attr_bytes in H. inv_bind H v. unfold secret. rewrite H0.
  destruct v; cbn [as_bytes] in H; try discriminate. congruence.
Qed.

Lemma hmac_tag : forall z h n k data tag, In (z, (h, n)) rfc_hmacs -> law_hmac_len X ->
  alg_compute_tag X (alg z) k data = Ok tag ->
  exists b rest, secret k b /\ length tag = n /\ x_hmac X h b data = tag ++ rest.
Proof.
  intros z h n k data tag HI HL H.
  assert (HT : alg_kind (alg z) = Some (AHmac h n) /\ n <= hash_len h).
  { repeat (destruct HI as [HI|HI]; [injection HI as <- <- <-; split; [reflexivity|apply Nat.leb_le; reflexivity]|]). destruct HI. }
  destruct HT as [HT HN]. unfold alg_compute_tag in H. rewrite HT in H. inv_bind H b. injection H as <-.
  exists b, (skipn n (x_hmac X h b data)). split; [apply attr_bytes_secret; assumption|]. split.
  - rewrite firstn_length, HL. lia.
  - symmetry. apply firstn_skipn.
Qed.

Lemma cbc_tag : forall z n k data tag, In (z, n) rfc_aes_macs -> law_aes_len X -> data <> [] ->
  alg_compute_tag X (alg z) k data = Ok tag ->
  exists b blocks rest, secret k b /\ padded_blocks data blocks /\ length tag = n /\
    cbc_mac (x_aes X b) blocks = tag ++ rest.
Proof.
  intros z n k data tag HI HL HD H.
  assert (HT : exists len, alg_kind (alg z) = Some (ACbcMac n len) /\ (n = 8 \/ n = 16)).
  { repeat (destruct HI as [HI|HI]; [injection HI as <- <-; eexists; split; [reflexivity|auto]|]). destruct HI. }
  destruct HT as (len & HT & HN). unfold alg_compute_tag in H. rewrite HT in H. inv_bind H b.
  unfold aes_key in H0. inv_bind H0 b'. destruct (existsb _ _); [|discriminate]. injection H0 as ->.
  destruct (zero_pad_spec data) as (m & Hm & HZ & HM).
  set (p := zero_pad data) in *.
  destruct (chunks_spec (length p) p (le_n _) HM) as [HC HF].
  exists b, (chunks (length p) p).
  assert (HNE : chunks (length p) p <> []).
  { intros HE. rewrite HE in HC. cbn [concat] in HC. rewrite HZ in HC. destruct data; [contradiction|discriminate]. }
  destruct (cbc_last (x_aes X b) (chunks (length p) p) (repeat x00 16) HNE) as [pre HP].
  unfold cbc_ciphertext in H. fold p in H. cbv zeta in H. rewrite HP in H.
  fold (cbc_mac (x_aes X b) (chunks (length p) p)) in H.
  assert (HLen : length (cbc_mac (x_aes X b) (chunks (length p) p)) = 16)
    by (apply cbc_mac_length; [apply HL|assumption|reflexivity]).
  set (mac := cbc_mac (x_aes X b) (chunks (length p) p)) in *.
  injection H as <-. unfold cbc_digest. destruct HN as [-> | ->].
  - change (8 =? 16) with false. cbv iota. rewrite mid_n_app by assumption.
    exists (skipn 8 mac). split; [apply attr_bytes_secret; assumption|].
    split; [split; [assumption|exists m; split; [assumption|]; rewrite HC; exact HZ]|].
    split; [rewrite firstn_length, HLen; reflexivity|]. symmetry. apply firstn_skipn.
  - change (16 =? 16) with true. cbv iota. rewrite last_n_app by assumption.
    exists []. split; [apply attr_bytes_secret; assumption|].
    split; [split; [assumption|exists m; split; [assumption|]; rewrite HC; exact HZ]|].
    split; [assumption|]. rewrite app_nil_r. reflexivity.
Qed.

(** The MAC input is never empty. *)
Lemma mac_structure_nonempty : forall ctx c data, mac_structure ctx c = Ok data -> data <> [].
Proof.
  intros ctx c data H ->. unfold mac_structure in H. inv_bind H p. destruct (payload c) as [pl|]; [|discriminate].
  unfold dumps_plain, dumps in H. inv_bind H i. destruct (wfc i); [|discriminate]. injection H as H.
  pose proof (enc_nonempty i) as HE. rewrite H in HE. cbn [length] in HE. lia.
Qed.

Lemma verify_tag_iff : forall a k tag data, alg_verify_tag X a k tag data = Ok true <->
  exists t, alg_compute_tag X a k data = Ok t /\ tag = VBytes t.
Proof.
  intros a k tag data. unfold alg_verify_tag. split.
  - intros H. inv_bind H t. exists t. split; [assumption|]. injection H as H. apply veqb_eq. assumption.
  - intros (t & HT & ->). rewrite HT. cbn [bind]. rewrite veqb_refl. reflexivity.
Qed.

(** ** Key sizes *)

Lemma kw_key_ok : forall n k b, kw_key n k = Ok b -> secret k b /\ length b = n.
Proof.
  intros n k b H. unfold kw_key in H. inv_bind H v. inv_bind H m.
  destruct (Nat.eqb_spec n m); [|discriminate]. subst m. destruct v; cbn [as_bytes] in H; try discriminate.
  injection H as ->. cbn [py_len] in H1. injection H1 as H1. auto.
Qed.

Lemma wrap_size : forall z n seed kek data w, In (z, n) rfc_key_wraps ->
  (alg_key_wrap X seed (alg z) kek data = Ok w \/ alg_key_unwrap X (alg z) kek data = Ok w) ->
  exists b, secret kek b /\ length b = n.
Proof.
  intros z n seed kek data w HI H.
  assert (HT : alg_kind (alg z) = Some (AKw n)).
  { repeat (destruct HI as [HI|HI]; [injection HI as <- <-; reflexivity|]). destruct HI. }
  unfold alg_key_wrap, alg_key_unwrap in H. rewrite HT in H. destruct H as [H|H]; inv_bind H b; exists b; apply kw_key_ok; assumption.
Qed.

Lemma wrap_refused : forall z n seed kek b data, In (z, n) rfc_key_wraps -> secret kek b -> length b <> n ->
  alg_key_wrap X seed (alg z) kek data = Err ValueError /\ alg_key_unwrap X (alg z) kek data = Err ValueError.
Proof.
  intros z n seed kek b data HI HS HL.
  assert (HT : alg_kind (alg z) = Some (AKw n)).
  { repeat (destruct HI as [HI|HI]; [injection HI as <- <-; reflexivity|]). destruct HI. }
  unfold alg_key_wrap, alg_key_unwrap. rewrite HT. unfold kw_key. rewrite HS. cbn [bind py_len].
  destruct (Nat.eqb_spec n (length b)); [congruence|]. split; reflexivity.
Qed.

(** The primitives get exactly the secret, the nonce, the data and the additional data. *)
Lemma gcm_calls : forall z n k nonce d ad b, In (z, n) rfc_gcms -> secret k b ->
  alg_encrypt X (alg z) k (VBytes nonce) (VBytes d) ad = x_gcm_enc X b nonce d ad /\
  alg_decrypt X (alg z) k (VBytes nonce) (VBytes d) ad = x_gcm_dec X b nonce d ad.
Proof.
  intros z n k nonce d ad b HI HS.
  assert (HT : alg_kind (alg z) = Some (AGcm n)).
  { repeat (destruct HI as [HI|HI]; [injection HI as <- <-; reflexivity|]). destruct HI. }
  unfold alg_encrypt, alg_decrypt, attr_bytes. rewrite HT, HS. split; reflexivity.
Qed.

Lemma ccm_calls : forall z n t k nonce d ad b, In (z, (n, t)) rfc_ccms -> secret k b ->
  alg_encrypt X (alg z) k (VBytes nonce) (VBytes d) ad = x_ccm_enc X t b nonce d ad /\
  alg_decrypt X (alg z) k (VBytes nonce) (VBytes d) ad = x_ccm_dec X t b nonce d ad.
Proof.
  intros z n t k nonce d ad b HI HS.
  assert (HT : alg_kind (alg z) = Some (ACcm t n)).
  { repeat (destruct HI as [HI|HI]; [injection HI as <- <- <-; reflexivity|]). destruct HI. }
  unfold alg_encrypt, alg_decrypt, attr_bytes. rewrite HT, HS. split; reflexivity.
Qed.

(** ** ECDSA: always the curve of the algorithm *)
Lemma ecdsa_calls : forall z c h seed k data, In (z, c, h) ecdsa_curves ->
  (forall d, prop_get k PD = Ok (VBytes d) -> d <> [] ->
     alg_sign X seed (alg z) k data = x_ecdsa_sign X c h (of_be d) data) /\
  (forall x y s, prop_get k PX = Ok (VBytes x) -> prop_get k PY = Ok (VBytes y) -> x <> [] -> y <> [] ->
     alg_verify X (alg z) k data (VBytes s) = x_ecdsa_verify X c h (of_be x) (of_be y) data s).
Proof.
  intros z c h seed k data HI.
  assert (HT : alg_kind (alg z) = Some (AEcdsa c h)).
  { repeat (destruct HI as [HI|HI]; [injection HI as <- <- <-; reflexivity|]). destruct HI. }
  unfold alg_sign, alg_verify, attr_hex. rewrite HT. split.
  - intros d HD HN. rewrite HD. cbn [bind as_bytes]. destruct d; [elim HN; reflexivity|]. reflexivity.
  - intros x y s HX HY HNx HNy. rewrite HX, HY. cbn [bind as_bytes].
    destruct x; [elim HNx; reflexivity|]. destruct y; [elim HNy; reflexivity|]. reflexivity.
Qed.

(** ** Hashes *)
Lemma hash_calls : forall z h n data, In (z, (h, n)) rfc_hashes -> law_hash_len X ->
  exists t rest, alg_compute_hash X (alg z) data = Ok t /\ length t = n /\ x_hash X h data = t ++ rest.
Proof.
  intros z h n data HI HL.
  assert (HT : (exists m, alg_kind (alg z) = Some (AHash h (Some m)) /\ m = n /\ n <= hash_len h) \/
    (alg_kind (alg z) = Some (AHash h None) /\ n = hash_len h)).
  { repeat (destruct HI as [HI|HI]; [injection HI as <- <- <-;
      first [right; split; reflexivity|left; eexists; split; [reflexivity|split; [reflexivity|apply Nat.leb_le; reflexivity]]]|]). destruct HI. }
  unfold alg_compute_hash. destruct HT as [(m & -> & -> & HN)|[-> ->]].
  - eexists. exists (skipn n (x_hash X h data)). split; [reflexivity|].
    split; [rewrite firstn_length, HL; lia|]. symmetry. apply firstn_skipn.
  - eexists. exists []. split; [reflexivity|]. split; [apply HL|]. rewrite app_nil_r. reflexivity.
Qed.

End WithX.
