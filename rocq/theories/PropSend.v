(** C103: complete messages are encoded; only the primitives can refuse them. *)
From Coq Require Import NArith ZArith Bool String.
From Coq Require Import Init.Byte List.
From Verif Require Import Bytes Value Registry Crypto SpecCrypto Toy Keys Headers Messages Recipients SpecKeys SpecAlg SpecCheck SpecRcpt SpecSend
  RcptProofs SendProofs PropHdr PropMsg PropRcpt PropRcptTrip.
Import ListNotations.

(** ** COSE_Sign1 and COSE_Sign *)

(** With sendable headers, a permitted algorithm, a private key of its type and exactly one
    payload, [encode] fails only when the signature primitive does. *)
Theorem C103_sign1_partial : forall X seed m tag detached,
  sendable_headers (s1_core m) -> signs (s1_core m) -> one_payload (s1_core m) detached ->
  only (sign_failure X) (sign1_encode X seed m tag true (vopt detached)).
Proof. intros. apply send_sign1; assumption. Qed.
Print Assumptions C103_sign1_partial.

Theorem C103_sign_partial : forall X seed m tag detached,
  sendable_headers (sm_core m) -> Forall (fun s => sendable_headers s /\ signs s) (sm_signers m) -> one_payload (sm_core m) detached ->
  only (sign_failure X) (sign_encode X seed m tag (vopt detached)).
Proof. intros. apply send_sign; assumption. Qed.
Print Assumptions C103_sign_partial.

(** ** COSE_Encrypt0 and COSE_Mac0 *)

Theorem C103_encrypt0_partial : forall X c z k tag,
  sendable_headers c -> permitted c z k [Cls FOps 3] -> k_cls k = KSym -> enc_algorithm z -> has_nonce c k -> payload c <> None ->
  only (seal_failure X) (enc0_encode X c tag true).
Proof. intros. eapply send_enc0; eassumption. Qed.
Print Assumptions C103_encrypt0_partial.

(** MACs cannot fail at all. *)
Theorem C103_mac0_partial : forall X m z k tag,
  sendable_headers (m0_core m) -> permitted (m0_core m) z k [Cls FOps 9] -> k_cls k = KSym -> mac_algorithm z -> payload (m0_core m) <> None ->
  only never (snd (mac0_encode X m tag true)).
Proof. intros. eapply send_mac0; eassumption. Qed.
Print Assumptions C103_mac0_partial.

(** ** COSE_Encrypt and COSE_Mac *)

(** The key of the message is the content key, and at least one recipient says so. *)
Theorem C103_encrypt_direct_partial : forall X n m z k tag,
  sendable_headers (e_core m) -> permitted (e_core m) z k [Cls FOps 3] -> k_cls k = KSym -> enc_algorithm z ->
  has_nonce (e_core m) k -> payload (e_core m) <> None -> e_rcpts m <> [] -> Forall direct_recipient (e_rcpts m) ->
  only (send_failure X) (snd (encm_encode X n m tag true)).
Proof. intros. eapply send_enc_direct; eassumption. Qed.
Print Assumptions C103_encrypt_direct_partial.

(** Every recipient gets the content key wrapped; the message needs no key. *)
Theorem C103_encrypt_wrapped_partial : forall X n m z nonce tag, law_urandom_len X ->
  sendable_headers (e_core m) -> get_attr (e_core m) Algorithm = Ok (alg z) -> enc_algorithm z -> get_attr (e_core m) IV = Ok (VBytes nonce) ->
  payload (e_core m) <> None -> e_rcpts m <> [] -> Forall wrap_recipient (e_rcpts m) ->
  only (send_failure X) (snd (encm_encode X n m tag true)).
Proof. intros. eapply send_enc_wrapped; eassumption. Qed.
Print Assumptions C103_encrypt_wrapped_partial.

Theorem C103_mac_direct_partial : forall X n m rs z k tag,
  sendable_headers (mm_core m) -> permitted (mm_core m) z k [Cls FOps 9] -> k_cls k = KSym -> mac_algorithm z ->
  payload (mm_core m) <> None -> mm_rcpts m = Some rs -> rs <> [] -> Forall direct_recipient rs ->
  only never (snd (macm_encode X n m tag true)).
Proof. intros. eapply send_mac_direct; eassumption. Qed.
Print Assumptions C103_mac_direct_partial.

(** ** Without protecting anything *)

(** [encode(sign=False)], [encode(encrypt=False)], [encode(mac=False)]: the headers are enough. *)
Theorem C103_unprotected_partial : forall X seed c s t tag, sendable_headers c -> sendable s = true ->
  only never (sign1_encode X seed (Sign1 c s) tag false VNone) /\
  only never (enc0_encode X c tag false) /\
  only never (snd (mac0_encode X (Mac0 c t) tag false)).
Proof.
  intros X seed c s t tag HH HS. split; [|split].
  - unfold sign1_encode. cbv zeta. apply only_bind; [apply send_phdr; exact HH|]. intros p _. destruct HH as [_ HU].
    cbn [s1_core s1_sig]. apply only_bind; [destruct (truthy s); exact I|]. intros items HI. apply send_emit.
    destruct (truthy s); injection HI as <-; cbn [app forallb sendable] in HU |- *; rewrite sendable_vopt, HU, ?HS; reflexivity.
  - unfold enc0_encode. apply only_bind; [apply send_phdr; exact HH|]. intros p _. apply only_bind; [exact I|]. intros b HB. injection HB as <-.
    apply send_emit. destruct HH as [_ HU]. cbn [forallb sendable] in HU |- *. rewrite sendable_vopt, HU. reflexivity.
  - unfold mac0_encode. cbv zeta. cbn [m0_core]. pose proof (send_phdr _ HH) as HP. destruct (phdr_encoded c) as [p|e]; [|exact HP]. cbn [snd]. apply send_emit.
    destruct HH as [_ HU]. cbn [forallb sendable] in HU |- *. rewrite sendable_vopt, HU. reflexivity.
Qed.
Print Assumptions C103_unprotected_partial.

(** ** What fails although nothing is missing *)

(** A COSE_Mac message for key-wrap recipients is never encoded: NameError, or an exception of
    the recipients before that. *)
Theorem C103_mac_wrapped_refuted : forall X n m rs tag, mm_rcpts m = Some rs -> rs <> [] -> Forall wrap_recipient rs ->
  exists e, snd (macm_encode X n m tag true) = Err e.
Proof.
  intros X n m rs tag HM HR HF. apply (macm_encode_wrapped X n m rs tag HM). split; [exact HR|].
  intros r HI. left. rewrite Forall_forall in HF. apply (HF r HI).
Qed.
Print Assumptions C103_mac_wrapped_refuted.

Lemma ex_sym_permits : forall c z ops, get_attr c Algorithm = Ok (alg z) -> ckey c = Some ex_sym -> permitted c z ex_sym ops.
Proof.
  intros c z ops HA HK. split; [exact HA|]. split; [exact HK|]. split; [|split].
  - split; [intros v H; discriminate H|]. split; [intros v H; discriminate H|]. split; [intros v H; discriminate H|].
    split; [intros e []|]. exists (repeat x2a 16). split; [reflexivity|]. cbn. auto.
  - left. reflexivity.
  - left. reflexivity.
Qed.

Lemma ex_kw_wraps : forall id, wrap_recipient (ex_kw id (Some ex_sym) []).
Proof.
  intros id. split; [reflexivity|]. split; [reflexivity|]. split; [split; reflexivity|]. split; [reflexivity|]. split.
  - left. exists (-3)%Z, 16, ex_sym, (repeat x2a 16). split; [reflexivity|]. split; [left; reflexivity|]. split; [reflexivity|]. split; reflexivity.
  - exists []. split; [reflexivity|left; reflexivity].
Qed.

Lemma ex_direct_direct : forall id, direct_recipient (ex_direct id).
Proof. intros id. split; [reflexivity|]. split; [reflexivity|]. split; [split; reflexivity|]. exists (-6)%Z. split; [reflexivity|reflexivity]. Qed.

(** A complete COSE_Mac message for one key-wrap recipient: everything needed is there. *)
Theorem C103_mac_complete_refuted : exists m r, mm_rcpts m = Some [r] /\ wrap_recipient r /\ sendable_headers (mm_core m) /\
  permitted (mm_core m) 5 ex_sym [Cls FOps 9] /\ mac_algorithm 5 /\ payload (mm_core m) <> None /\
  forall n tag, exists e, snd (macm_encode toy n m tag true) = Err e /\ e <> CoseException.
Proof.
  exists (ex_mac [ex_kw 0 (Some ex_sym) []]), (ex_kw 0 (Some ex_sym) []). split; [reflexivity|]. split; [apply ex_kw_wraps|]. split; [split; reflexivity|].
  split; [apply ex_sym_permits; reflexivity|]. split; [left; cbn; auto|]. split; [discriminate|]. intros n tag. eexists. split; [reflexivity|discriminate].
Qed.
Print Assumptions C103_mac_complete_refuted.

(** ** The hypotheses are met *)

Definition ex_signer : core := Core [(Algorithm, alg (-7)); (KID, VBytes (bs "me"))] None [(ContentType, VInt 60)] [] false (Some (bs "hi")) [] (Some ex_ec2).

Lemma ex_signer_signs : sendable_headers ex_signer /\ signs ex_signer.
Proof.
  split; [split; reflexivity|]. exists (-7)%Z, ex_ec2. split; [|split].
  - split; [reflexivity|]. split; [reflexivity|]. split; [|split; left; reflexivity].
    split; [intros v H; discriminate H|]. split; [intros v H; discriminate H|]. split; [intros v H; discriminate H|].
    split; [intros e []|]. split; [exists [x07]; split; [reflexivity|discriminate]|]. split; [exists [x08]; split; [reflexivity|discriminate]|].
    eexists. reflexivity.
  - left. reflexivity.
  - exists [x07]. split; [reflexivity|discriminate].
Qed.

Example C103_example :
  (exists b, sign1_encode toy 0 (Sign1 ex_signer (VBytes [])) true true VNone = Ok b) /\
  (exists b, sign_encode toy 0 (SignMsg ex_signer [ex_signer; ex_signer]) true VNone = Ok b) /\
  (exists b, enc0_encode toy (e_core (ex_enc [])) true true = Ok b) /\
  (exists b, snd (mac0_encode toy (Mac0 (mm_core (ex_mac [])) VNone) true true) = Ok b) /\
  (exists b, snd (encm_encode toy 0 (ex_enc [ex_direct 0; ex_direct 1]) true true) = Ok b) /\
  (exists b, snd (encm_encode toy 0 (ex_enc [ex_kw 0 (Some ex_sym) []; ex_oaep 1]) true true) = Ok b) /\
  (exists b, snd (macm_encode toy 0 (ex_mac [ex_direct 0]) true true) = Ok b).
Proof. repeat split; eexists; vm_compute; reflexivity. Qed.

Example C103_hypotheses_example :
  (sendable_headers ex_signer /\ signs ex_signer /\ one_payload ex_signer None) /\
  (sendable_headers (e_core (ex_enc [])) /\ permitted (e_core (ex_enc [])) 1 ex_sym [Cls FOps 3] /\ enc_algorithm 1 /\ has_nonce (e_core (ex_enc [])) ex_sym) /\
  (sendable_headers (mm_core (ex_mac [])) /\ permitted (mm_core (ex_mac [])) 5 ex_sym [Cls FOps 9] /\ mac_algorithm 5) /\
  Forall direct_recipient [ex_direct 0; ex_direct 1] /\ Forall wrap_recipient [ex_kw 0 (Some ex_sym) []; ex_oaep 1].
Proof.
  split; [split; [apply ex_signer_signs|split; [apply ex_signer_signs|exact I]]|]. split; [|split; [|split]].
  - split; [split; reflexivity|]. split; [apply ex_sym_permits; reflexivity|]. split; [left; left; reflexivity|]. left. eexists. reflexivity.
  - split; [split; reflexivity|]. split; [apply ex_sym_permits; reflexivity|]. left. cbn. auto.
  - repeat constructor; apply ex_direct_direct.
  - constructor; [apply ex_kw_wraps|]. constructor; [|constructor]. split; [reflexivity|]. split; [reflexivity|]. split; [split; reflexivity|]. split; [reflexivity|]. split.
    + right. exists (-41)%Z, ex_rsa_pub. split; [|split; [cbn; auto|reflexivity]]. split; [reflexivity|]. split; [reflexivity|]. split; [|split; left; reflexivity].
      split; [intros v H; discriminate H|]. split; [intros v H; discriminate H|]. split; [intros v H; discriminate H|]. split; [intros e []|].
      eexists. eexists. split; reflexivity.
    + exists []. split; [reflexivity|left; reflexivity].
Qed.
