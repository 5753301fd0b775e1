(** C109: what exists in memory is encoded. *)
From Coq Require Import NArith ZArith Bool String Lia.
From Coq Require Import Init.Byte List.
From Verif Require Import Bytes BytesProofs Value ValueProofs Cbor SpecData DataProofs Registry Crypto Toy Keys Headers Messages Recipients SpecKeys SpecAlg SpecCheck SpecTrip SpecSize SpecSend
  KeyTrip2 SpecCrypto SpecRcpt SizeProofs SizeProofs2 SizeProofs3 SendProofs SpecGen SendAgree GenProofs SizeProofs4 PropTrip PropHdr PropMsg PropRcpt PropRcptTrip PropSend PropSendAgree.
Import ListNotations.

(** ** Values *)

(** Every plain value is serialised, and whoever reads the bytes has the value. *)
Theorem C109_values : forall h v, data_value false v = true -> exists_in_memory v = true ->
  exists b, dumps cls_fullname h v = Ok b /\ forall rest, loads_bytes (b ++ rest) = Ok v.
Proof.
  intros h v HD HM. destruct (lower_data cls_fullname v false HD) as (c & HC0). pose proof (HC0 h) as HC.
  exists (enc c). assert (E : dumps cls_fullname h v = Ok (enc c)) by (unfold dumps; rewrite HC; cbn [bind]; rewrite (memory_wfc v h c HM HC); reflexivity).
  split; [exact E|]. intros rest. exact (loads_bytes_dumps cls_fullname h v (enc c) rest HD E).
Qed.
Print Assumptions C109_values.

(** The bytes are not much longer than the value. *)
Theorem C109_length : forall h v b, dumps cls_fullname h v = Ok b -> (blen b <= room v)%N.
Proof. intros h v b H. exact (dumps_room v h b H). Qed.
Print Assumptions C109_length.

(** ** Keys *)

(** A complete key is encoded, and whoever decodes that has the same key. *)
Theorem C109_keys : forall X k, portable X k -> exists_in_memory (VDict (k_store k)) = true ->
  exists b k', key_encode k = Ok b /\ key_decode X (VBytes b) = Ok k' /\ same_key k k'.
Proof.
  intros X k HP HM. destruct (C37_portable_partial X k HP) as [H|H]; [|exact H]. elim (memory_dumps _ HIdent HM). exact H.
Qed.
Print Assumptions C109_keys.

(** ** Messages *)

(** With everything in place that C103 asks for, encoding succeeds unless a primitive fails. *)
Theorem C109_sign1 : forall X seed m tag detached, law_sign_fits X ->
  sendable_headers (s1_core m) -> signs (s1_core m) -> one_payload (s1_core m) detached ->
  core_exists (s1_core m) -> (forall b, detached = Some b -> fits b = true) ->
  unless (sign_failure X) (sign1_encode X seed m tag true (vopt detached)).
Proof. intros. apply size_sign1; assumption. Qed.
Print Assumptions C109_sign1.

Theorem C109_sign : forall X seed m tag detached, law_sign_fits X ->
  sendable_headers (sm_core m) -> core_exists (sm_core m) -> fits (sm_signers m) = true ->
  Forall (fun s => sendable_headers s /\ signs s /\ core_exists s) (sm_signers m) ->
  one_payload (sm_core m) detached -> (forall b, detached = Some b -> fits b = true) ->
  unless (sign_failure X) (sign_encode X seed m tag (vopt detached)).
Proof. intros. apply size_sign; assumption. Qed.
Print Assumptions C109_sign.

Theorem C109_encrypt0 : forall X c z k tag, law_seal_fits X ->
  sendable_headers c -> core_exists c -> permitted c z k [Cls FOps 3] -> k_cls k = KSym -> enc_algorithm z -> has_nonce c k -> payload c <> None ->
  unless (seal_failure X) (enc0_encode X c tag true).
Proof. intros X c z k tag HF HH HE HP HC HZ HN HL. exact (size_enc0 X c z k tag HF HH HE HP HC HZ HN HL). Qed.
Print Assumptions C109_encrypt0.

(** A COSE_Mac0 message is always encoded. *)
Theorem C109_mac0 : forall X m z k tag,
  sendable_headers (m0_core m) -> core_exists (m0_core m) -> permitted (m0_core m) z k [Cls FOps 9] -> k_cls k = KSym -> mac_algorithm z ->
  payload (m0_core m) <> None -> exists b, snd (mac0_encode X m tag true) = Ok b.
Proof.
  intros X m z k tag HH HE HP HC HZ HL. pose proof (size_mac0 X m z k tag HH HE HP HC HZ HL) as H.
  destruct (snd (mac0_encode X m tag true)) as [b|x]; [eauto|destruct H].
Qed.
Print Assumptions C109_mac0.

(** ** Messages with recipients *)

(** The key of the message is the content key: COSE_Encrypt is encoded unless the cipher refuses,
    COSE_Mac always. *)
Theorem C109_encrypt_direct : forall X n m z k tag, law_seal_fits X ->
  sendable_headers (e_core m) -> core_exists (e_core m) -> permitted (e_core m) z k [Cls FOps 3] -> k_cls k = KSym -> enc_algorithm z ->
  has_nonce (e_core m) k -> payload (e_core m) <> None -> e_rcpts m <> [] -> fits (e_rcpts m) = true ->
  Forall (fun r => direct_recipient r /\ core_exists (r_core r)) (e_rcpts m) ->
  unless (seal_failure X) (snd (encm_encode X n m tag true)).
Proof. intros. eapply size_enc_direct; eassumption. Qed.
Print Assumptions C109_encrypt_direct.

Theorem C109_mac_direct : forall X n m rs z k tag,
  sendable_headers (mm_core m) -> core_exists (mm_core m) -> permitted (mm_core m) z k [Cls FOps 9] -> k_cls k = KSym -> mac_algorithm z ->
  payload (mm_core m) <> None -> mm_rcpts m = Some rs -> rs <> [] -> fits rs = true ->
  Forall (fun r => direct_recipient r /\ core_exists (r_core r)) rs ->
  exists b, snd (macm_encode X n m tag true) = Ok b.
Proof. intros. eapply size_mac_direct; eassumption. Qed.
Print Assumptions C109_mac_direct.

(** Every recipient gets the content key wrapped. *)
Theorem C109_encrypt_wrapped : forall X n m z nonce tag, law_urandom_len X -> law_seal_fits X -> law_wrap_fits X ->
  sendable_headers (e_core m) -> core_exists (e_core m) -> get_attr (e_core m) Algorithm = Ok (alg z) -> enc_algorithm z ->
  get_attr (e_core m) IV = Ok (VBytes nonce) -> payload (e_core m) <> None -> e_rcpts m <> [] -> fits (e_rcpts m) = true ->
  Forall (fun r => wrap_recipient r /\ core_exists (r_core r)) (e_rcpts m) ->
  unless (send_failure X) (snd (encm_encode X n m tag true)).
Proof. intros. eapply size_enc_wrapped; eassumption. Qed.
Print Assumptions C109_encrypt_wrapped.

(** Every recipient gets the content key wrapped, by key wrap or by key agreement and key wrap, in
    any mixture; recipients without a key of their own get an ephemeral one. *)
Theorem C109_encrypt_agree_wrap : forall X n m z nonce tag, law_urandom_len X -> law_hkdf_len X -> law_ec_gen X -> law_seal_fits X -> law_wrap_fits X ->
  sendable_headers (e_core m) -> core_exists (e_core m) -> get_attr (e_core m) Algorithm = Ok (alg z) -> enc_algorithm z ->
  get_attr (e_core m) IV = Ok (VBytes nonce) -> payload (e_core m) <> None -> e_rcpts m <> [] -> fits (e_rcpts m) = true ->
  Forall (fun r => (wrap_recipient r /\ core_exists (r_core r)) \/ (agree_wrap_recipient r /\ agree_exists (r_core r))) (e_rcpts m) ->
  unless (any_failure X) (snd (encm_encode X n m tag true)).
Proof. intros. eapply size_enc_wrapped_any; eassumption. Qed.
Print Assumptions C109_encrypt_agree_wrap.

(** The content key is agreed on with the only recipient. *)
Theorem C109_encrypt_agree : forall X n m r z nonce tag, law_hkdf_len X -> law_seal_fits X ->
  sendable_headers (e_core m) -> core_exists (e_core m) -> get_attr (e_core m) Algorithm = Ok (alg z) -> enc_algorithm z ->
  get_attr (e_core m) IV = Ok (VBytes nonce) -> payload (e_core m) <> None -> e_rcpts m = [r] -> agree_recipient r -> agree_exists (r_core r) ->
  unless (any_failure X) (snd (encm_encode X n m tag true)).
Proof. intros. eapply size_enc_agree; eassumption. Qed.
Print Assumptions C109_encrypt_agree.

Theorem C109_mac_agree : forall X n m r z tag, law_hkdf_len X ->
  sendable_headers (mm_core m) -> core_exists (mm_core m) -> get_attr (mm_core m) Algorithm = Ok (alg z) -> In z [14; 15; 25; 26]%Z ->
  payload (mm_core m) <> None -> mm_rcpts m = Some [r] -> agree_recipient r -> agree_exists (r_core r) ->
  unless (agree_failure X) (snd (macm_encode X n m tag true)).
Proof. intros. eapply size_mac_agree; eassumption. Qed.
Print Assumptions C109_mac_agree.

(** ** The hypotheses are met *)

Lemma toy_sign_fits : law_sign_fits toy.
Proof.
  assert (HM : forall n l, (n <= 64)%nat -> fits (mix n l) = true) by (intros n l H; apply fits_lt; unfold blen, mix; rewrite to_be_length; lia).
  split; [|split]; intros; (match goal with H : _ = Ok _ |- _ => injection H as <- end); apply HM; apply Nat.leb_le; reflexivity.
Qed.
Lemma toy_seal_fits : law_seal_fits toy.
Proof.
  split; intros; (match goal with H : _ = Ok _ |- _ => injection H as <- end); unfold blen; rewrite app_length; unfold mix; rewrite to_be_length; lia.
Qed.

Lemma toy_wrap_fits : law_wrap_fits toy.
Proof.
  split; intros; (match goal with H : _ = Ok _ |- _ => injection H as <- end); apply fits_lt; unfold blen in *; rewrite app_length; unfold mix; rewrite to_be_length; lia.
Qed.

Lemma ex_core_exists : forall c, exists_in_memory (VDict (phdr c)) && N.ltb (room (VDict (phdr c))) (2 ^ 63) && exists_in_memory (VDict (uhdr c)) && fits (aad c) &&
  (match phdr_raw c with Some p => fits p | None => true end) && (match payload c with Some p => N.ltb (blen p + 16) (2 ^ 63) | None => true end) = true -> core_exists c.
Proof.
  intros c H. rewrite !andb_true_iff in H. destruct H as [[[[[H1 H2] H3] H4] H5] H6]. apply N.ltb_lt in H2. repeat split; try assumption.
  - intros p E. rewrite E in H5. exact H5.
  - intros p E. rewrite E in H6. apply N.ltb_lt. exact H6.
Qed.

Example C109_example :
  core_exists ex_signer /\ core_exists (e_core (ex_enc [])) /\ core_exists (mm_core (ex_mac [])) /\
  unless (sign_failure toy) (sign1_encode toy 0 (Sign1 ex_signer (VBytes [])) true true VNone) /\
  (exists b, snd (mac0_encode toy (Mac0 (mm_core (ex_mac [])) VNone) true true) = Ok b).
Proof.
  split; [apply ex_core_exists; vm_compute; reflexivity|]. split; [apply ex_core_exists; vm_compute; reflexivity|]. split; [apply ex_core_exists; vm_compute; reflexivity|]. split.
  - apply (C109_sign1 toy 0 (Sign1 ex_signer (VBytes [])) true None toy_sign_fits); [apply ex_signer_signs|apply ex_signer_signs|exact I| |discriminate].
    apply ex_core_exists; vm_compute; reflexivity.
  - apply (C109_mac0 toy (Mac0 (mm_core (ex_mac [])) VNone) 5 ex_sym true); [split; reflexivity|apply ex_core_exists; vm_compute; reflexivity|apply ex_sym_permits; reflexivity|reflexivity|left; cbn; auto|discriminate].
Qed.

Example C109_values_example : exists b, dumps cls_fullname HNone (VDict [(VStr (bs "n"), VInt (2 ^ 200)); (VInt 4, VList [VBytes [x2a]; VNone])]) = Ok b /\
  forall rest, loads_bytes (b ++ rest) = Ok (VDict [(VStr (bs "n"), VInt (2 ^ 200)); (VInt 4, VList [VBytes [x2a]; VNone])]).
Proof. apply C109_values; vm_compute; reflexivity. Qed.

Example C109_recipients_example :
  (exists b, snd (macm_encode toy 0 (ex_mac [ex_direct 0; ex_direct 1]) true true) = Ok b) /\
  unless (send_failure toy) (snd (encm_encode toy 0 (ex_enc [ex_kw 0 (Some ex_sym) []; ex_kw 1 (Some ex_sym) []]) true true)).
Proof.
  split.
  - apply (C109_mac_direct toy 0 (ex_mac [ex_direct 0; ex_direct 1]) [ex_direct 0; ex_direct 1] 5 ex_sym true).
    + split; reflexivity.
    + apply ex_core_exists; vm_compute; reflexivity.
    + apply ex_sym_permits; reflexivity.
    + reflexivity.
    + left; cbn; auto.
    + discriminate.
    + reflexivity.
    + discriminate.
    + reflexivity.
    + repeat (apply Forall_cons; [split; [|apply ex_core_exists; vm_compute; reflexivity]|]); [| |apply Forall_nil];
        (split; [reflexivity|]; split; [reflexivity|]; split; [split; reflexivity|]; exists (-6)%Z; split; [reflexivity|intros _; reflexivity]).
  - apply (C109_encrypt_wrapped toy 0 (ex_enc [ex_kw 0 (Some ex_sym) []; ex_kw 1 (Some ex_sym) []]) 1 (repeat x07 12) true).
    + apply Toy.toy_urandom_len.
    + apply toy_seal_fits.
    + apply toy_wrap_fits.
    + split; reflexivity.
    + apply ex_core_exists; vm_compute; reflexivity.
    + reflexivity.
    + left; cbn; auto.
    + reflexivity.
    + discriminate.
    + discriminate.
    + reflexivity.
    + repeat (apply Forall_cons; [split; [apply ex_kw_wraps|apply ex_core_exists; vm_compute; reflexivity]|]). apply Forall_nil.
Qed.

Example C109_agree_example :
  unless (any_failure toy) (snd (encm_encode toy 0 (ex_enc [ex_kw 0 (Some ex_sym) []; ex_agree 1; ex_agree_with 2 RAgreeKW (-34) []]) true true)) /\
  unless (agree_failure toy) (snd (macm_encode toy 0 (ex_aes_mac [ex_agree_with 0 RAgree (-25) [(EphemeralKey, kval ex_own_pub)]]) true true)).
Proof.
  destruct C103_agree_example as (L1 & L2 & L3 & _). split.
  - apply (C109_encrypt_agree_wrap toy 0 (ex_enc [ex_kw 0 (Some ex_sym) []; ex_agree 1; ex_agree_with 2 RAgreeKW (-34) []]) 1 (repeat x07 12) true L1 L2 L3 toy_seal_fits toy_wrap_fits).
    + split; reflexivity.
    + apply ex_core_exists; vm_compute; reflexivity.
    + reflexivity.
    + left; cbn; auto.
    + reflexivity.
    + discriminate.
    + discriminate.
    + reflexivity.
    + apply Forall_cons; [left; split; [apply ex_kw_wraps|apply ex_core_exists; vm_compute; reflexivity]|].
      apply Forall_cons; [right; split; [apply ex_agree_wraps|]|apply Forall_cons; [right; split; [apply ex_static_wraps|]|apply Forall_nil]].
      * split; [apply ex_core_exists; vm_compute; reflexivity|]. split; [vm_compute; reflexivity|]. intros _. apply N.ltb_lt. vm_compute. reflexivity.
      * split; [apply ex_core_exists; vm_compute; reflexivity|]. split; [vm_compute; reflexivity|discriminate].
  - apply (C109_mac_agree toy 0 (ex_aes_mac [ex_agree_with 0 RAgree (-25) [(EphemeralKey, kval ex_own_pub)]]) (ex_agree_with 0 RAgree (-25) [(EphemeralKey, kval ex_own_pub)]) 14 true L2).
    + split; reflexivity.
    + apply ex_core_exists; vm_compute; reflexivity.
    + reflexivity.
    + cbn; auto.
    + discriminate.
    + reflexivity.
    + apply ex_agrees.
    + split; [apply ex_core_exists; vm_compute; reflexivity|]. split; [vm_compute; reflexivity|discriminate].
Qed.
