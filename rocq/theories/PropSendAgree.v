(** C103, continued: complete messages for recipients with key agreement are encoded. *)
From Coq Require Import NArith ZArith Bool String.
From Coq Require Import Init.Byte List.
From Verif Require Import Bytes Value Registry Crypto SpecCrypto SpecGen Toy Keys Headers Messages Recipients SpecKeys SpecAlg SpecCheck SpecRcpt SpecSend
  RcptProofs SendProofs SendAgree GenProofs PropHdr PropMsg PropRcpt PropRcptTrip PropSend.
Import ListNotations.

(** Every recipient gets the content key wrapped, by key wrap or by key agreement and key
    wrap, in any mixture; recipients without a key of their own get an ephemeral one. *)
Theorem C103_encrypt_agree_wrap_partial : forall X n m z nonce tag, law_urandom_len X -> law_hkdf_len X -> law_ec_gen X ->
  sendable_headers (e_core m) -> get_attr (e_core m) Algorithm = Ok (alg z) -> enc_algorithm z -> get_attr (e_core m) IV = Ok (VBytes nonce) ->
  payload (e_core m) <> None -> e_rcpts m <> [] -> Forall (fun r => wrap_recipient r \/ agree_wrap_recipient r) (e_rcpts m) ->
  only (any_failure X) (snd (encm_encode X n m tag true)).
Proof. intros. eapply send_enc_wrapped_any; eassumption. Qed.
Print Assumptions C103_encrypt_agree_wrap_partial.

(** The content key is agreed on with the only recipient; the message needs no key. *)
Theorem C103_encrypt_agree_partial : forall X n m r z nonce tag, law_hkdf_len X ->
  sendable_headers (e_core m) -> get_attr (e_core m) Algorithm = Ok (alg z) -> enc_algorithm z -> get_attr (e_core m) IV = Ok (VBytes nonce) ->
  payload (e_core m) <> None -> e_rcpts m = [r] -> agree_recipient r ->
  only (any_failure X) (snd (encm_encode X n m tag true)).
Proof. intros. eapply send_enc_agree; eassumption. Qed.
Print Assumptions C103_encrypt_agree_partial.

(** The same for COSE_Mac, with the AES-MAC algorithms. *)
Theorem C103_mac_agree_partial : forall X n m r z tag, law_hkdf_len X ->
  sendable_headers (mm_core m) -> get_attr (mm_core m) Algorithm = Ok (alg z) -> In z [14; 15; 25; 26]%Z ->
  payload (mm_core m) <> None -> mm_rcpts m = Some [r] -> agree_recipient r ->
  only (agree_failure X) (snd (macm_encode X n m tag true)).
Proof. intros. eapply send_mac_agree; eassumption. Qed.
Print Assumptions C103_mac_agree_partial.

(** A COSE_Mac message is never encoded for recipients that need the content key wrapped. *)
Theorem C103_mac_agree_wrap_refuted : forall X n m rs tag, mm_rcpts m = Some rs -> rs <> [] ->
  Forall (fun r => wrap_recipient r \/ agree_wrap_recipient r) rs -> exists e, snd (macm_encode X n m tag true) = Err e.
Proof.
  intros X n m rs tag HM HR HF. apply (macm_encode_wrapped X n m rs tag HM). split; [exact HR|].
  intros r HI. rewrite Forall_forall in HF. destruct (HF r HI) as [[H _]|[H _]]; [left|right]; exact H.
Qed.
Print Assumptions C103_mac_agree_wrap_refuted.

(** ** The hypotheses are met *)

Lemma ex_derivable : forall z hs k lo, (forall h, In h [PartyUID; PartyUNonce; PartyUOther; PartyVID; PartyVNonce; PartyVOther] -> dget ((Algorithm, alg z) :: hs) h = None) ->
  dget lo SuppPubOther = None -> dget lo SuppPrivOther = None -> derivable (ex_core ((Algorithm, alg z) :: hs) [] k lo).
Proof.
  intros z hs k lo H1 H2 H3. split; [|split].
  - intros h HI. exists VNone. split; [|reflexivity]. specialize (H1 h HI). unfold get_attr, get_attr_default, dget_or. cbn [phdr uhdr ex_core]. rewrite H1. reflexivity.
  - intros h v [<-|[<-|[]]] H; cbn [local ex_core] in H; congruence.
  - reflexivity.
Qed.

Lemma ex_agree_wraps : forall id, agree_wrap_recipient (ex_agree id).
Proof.
  intros id. split; [reflexivity|]. split; [reflexivity|]. split; [split; reflexivity|]. split.
  { apply ex_derivable; [|reflexivity|reflexivity]. intros h HI. cbn in HI. repeat (destruct HI as [<-|HI]; [reflexivity|]). destruct HI. }
  split; [|exists []; split; [reflexivity|left; reflexivity]]. exists (-29)%Z, 1%Z, ex_pub. split; [reflexivity|]. split; [cbn; tauto|]. split.
  - split; [reflexivity|]. split; [reflexivity|]. split; [cbn; tauto|]. split; [reflexivity|]. split; eexists; (split; [reflexivity|discriminate]).
  - right. split; [reflexivity|]. split; [cbn; tauto|reflexivity].
Qed.

Lemma ex_peer_known : forall id rc z hs, peer_known (r_core (ex_agree_with id rc z hs)) 1 ex_peer /\ own_key (r_core (ex_agree_with id rc z hs)) ex_own.
Proof.
  intros. split.
  - split; [reflexivity|]. split; [reflexivity|]. split; [cbn; tauto|]. split; [reflexivity|]. split; eexists; (split; [reflexivity|discriminate]).
  - split; [reflexivity|]. split; [reflexivity|]. eexists. split; [reflexivity|discriminate].
Qed.

Lemma ex_static_wraps : forall id, agree_wrap_recipient (ex_agree_with id RAgreeKW (-34) []).
Proof.
  intros id. split; [reflexivity|]. split; [reflexivity|]. split; [split; reflexivity|]. split.
  { apply ex_derivable; [|reflexivity|reflexivity]. intros h HI. cbn in HI. repeat (destruct HI as [<-|HI]; [reflexivity|]). destruct HI. }
  split; [|exists []; split; [reflexivity|left; reflexivity]]. exists (-34)%Z, 1%Z, ex_peer. split; [reflexivity|]. split; [cbn; tauto|].
  split; [apply ex_peer_known|]. left. exists ex_own. apply ex_peer_known.
Qed.

Lemma ex_agrees : agree_recipient (ex_agree_with 0 RAgree (-25) [(EphemeralKey, kval ex_own_pub)]).
Proof.
  split; [reflexivity|]. split; [reflexivity|]. split; [split; reflexivity|]. split.
  { apply ex_derivable; [|reflexivity|reflexivity]. intros h HI. cbn in HI. repeat (destruct HI as [<-|HI]; [reflexivity|]). destruct HI. }
  exists (-25)%Z, 1%Z, ex_peer, ex_own. split; [reflexivity|]. split; [cbn; tauto|]. split; [apply ex_peer_known|]. split; [apply ex_peer_known|].
  split; [intros _; eexists; split; [reflexivity|discriminate]|]. split; [eexists; reflexivity|]. do 3 (split; [left; reflexivity|]). left. reflexivity.
Qed.

Definition ex_aes_mac (rs : list rcpt) : macmsg := MacMsg (ex_core [(Algorithm, alg 14)] (bs "hello") None []) (VBytes []) (Some rs).

Example C103_agree_example :
  let r := ex_agree_with 0 RAgree (-25) [(EphemeralKey, kval ex_own_pub)] in
  law_urandom_len toy /\ law_hkdf_len toy /\ law_ec_gen toy /\
  Forall (fun r => wrap_recipient r \/ agree_wrap_recipient r) [ex_kw 0 (Some ex_sym) []; ex_agree 1; ex_agree_with 2 RAgreeKW (-34) []] /\
  agree_recipient r /\
  (exists b, snd (encm_encode toy 0 (ex_enc [ex_kw 0 (Some ex_sym) []; ex_agree 1; ex_agree_with 2 RAgreeKW (-34) []]) true true) = Ok b) /\
  (exists b, snd (encm_encode toy 0 (ex_enc [r]) true true) = Ok b) /\
  (exists b, snd (macm_encode toy 0 (ex_aes_mac [r]) true true) = Ok b).
Proof.
  cbv zeta. split; [exact toy_urandom_len|]. split; [exact toy_hkdf_len|]. split; [exact toy_ec_gen|]. split; [|split; [exact ex_agrees|]].
  - constructor; [left; apply ex_kw_wraps|]. constructor; [right; apply ex_agree_wraps|]. constructor; [right; apply ex_static_wraps|constructor].
  - split; [|split]; eexists; vm_compute; reflexivity.
Qed.
