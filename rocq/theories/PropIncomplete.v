(** C105: incomplete messages are not encoded.

    Vocabulary: SpecIncomplete.v and SpecSend.v. Together with C103 (complete messages are
    encoded) the first theorems say exactly which messages [encode] accepts. *)
From Coq Require Import NArith ZArith Bool String.
From Coq Require Import Init.Byte List.
From Verif Require Import Bytes Value Registry Crypto Toy Keys Headers Messages Recipients SpecKeys SpecAlg SpecCheck SpecSend SpecIncomplete
  IncProofs IncProofs2 IncProofs3 PropHdr PropMsg PropRcpt PropRcptTrip PropSend PropSendAgree.
Import ListNotations.

(** ** What every encoded message had *)

Theorem C105_mac0 : forall X m tag b, typed_key (m0_core m) -> snd (mac0_encode X m tag true) = Ok b ->
  payload (m0_core m) <> None /\ exists z k, permitted (m0_core m) z k [Cls FOps 9] /\ k_cls k = KSym /\ mac_algorithm z.
Proof. exact mac0_sent. Qed.
Print Assumptions C105_mac0.

Theorem C105_encrypt0 : forall X c tag b, typed_key c -> byte_iv_headers c -> enc0_encode X c tag true = Ok b ->
  payload c <> None /\ exists z k, permitted c z k [Cls FOps 3] /\ k_cls k = KSym /\ enc_algorithm z /\ has_nonce c k.
Proof. exact enc0_sent. Qed.
Print Assumptions C105_encrypt0.

(** A signed message had one payload, a signature algorithm, and a key that permits it and gave
    the algorithm what it needs. If the algorithm belongs to the type of the key, and the
    primitives refuse empty numbers, the message was complete. *)
Theorem C105_sign1_partial : forall X seed m tag detached b, typed_key (s1_core m) -> sign1_encode X seed m tag true (vopt detached) = Ok b ->
  one_payload (s1_core m) detached /\ nearly_signs (s1_core m) /\
  (refuses_empty X -> (forall k, ckey (s1_core m) = Some k -> declares (s1_core m) (sig_algorithm (k_cls k))) -> signs (s1_core m)).
Proof. exact sign1_sent. Qed.
Print Assumptions C105_sign1_partial.

Theorem C105_sign_partial : forall X seed m tag detached b, Forall typed_key (sm_signers m) -> sign_encode X seed m tag (vopt detached) = Ok b ->
  (sm_signers m <> [] -> one_payload (sm_core m) detached) /\ Forall nearly_signs (sm_signers m) /\
  (refuses_empty X -> Forall (fun s => forall k, ckey s = Some k -> declares s (sig_algorithm (k_cls k))) (sm_signers m) -> Forall signs (sm_signers m)).
Proof. exact sign_sent. Qed.
Print Assumptions C105_sign_partial.

(** A message with recipients had at least one, and each had what it needs. *)
Theorem C105_encrypt : forall X n m tag b, typed_key (e_core m) -> byte_iv_headers (e_core m) -> Forall (fun r => typed_key (r_core r)) (e_rcpts m) ->
  snd (encm_encode X n m tag true) = Ok b ->
  e_rcpts m <> [] /\ Forall ready_recipient (e_rcpts m) /\ payload (e_core m) <> None /\ declares (e_core m) enc_algorithm /\
  ((Forall (fun r => r_class r = RDirect) (e_rcpts m) /\ exists z k, permitted (e_core m) z k [Cls FOps 3] /\ k_cls k = KSym /\ has_nonce (e_core m) k) \/
   (Forall (fun r => r_class r <> RDirect) (e_rcpts m) /\ exists v, get_attr (e_core m) IV = Ok (VBytes v))).
Proof. exact encm_sent. Qed.
Print Assumptions C105_encrypt.

Theorem C105_mac : forall X n m tag b, typed_key (mm_core m) -> snd (macm_encode X n m tag true) = Ok b ->
  exists rs, mm_rcpts m = Some rs /\ rs <> [] /\ Forall ready_recipient rs /\ payload (mm_core m) <> None /\ declares (mm_core m) mac_algorithm /\
  ((Forall (fun r => r_class r = RDirect) rs /\ exists z k, permitted (mm_core m) z k [Cls FOps 9] /\ k_cls k = KSym) \/
   exists r, rs = [r] /\ r_class r = RAgree).
Proof. exact macm_sent. Qed.
Print Assumptions C105_mac.

(** ** The exceptions *)

(** A refused message raises a COSE exception, except in the cases listed in SpecIncomplete.v. *)
Theorem C105_mac0_exceptions_partial : forall X m tag x, typed_key (m0_core m) -> sendable_headers (m0_core m) -> snd (mac0_encode X m tag true) = Err x ->
  is_cose_exception x = true \/ mac_refusal (m0_core m) x.
Proof. exact mac0_refused. Qed.
Print Assumptions C105_mac0_exceptions_partial.

Theorem C105_encrypt0_exceptions_partial : forall X c tag x, typed_key c -> byte_iv_headers c -> sendable_headers c -> enc0_encode X c tag true = Err x ->
  is_cose_exception x = true \/ enc_refusal X c x.
Proof. exact enc0_refused. Qed.
Print Assumptions C105_encrypt0_exceptions_partial.

Theorem C105_sign1_exceptions_partial : forall X seed m tag detached x, typed_key (s1_core m) -> sendable_headers (s1_core m) ->
  sign1_encode X seed m tag true (vopt detached) = Err x -> is_cose_exception x = true \/ sig_refusal X (s1_core m) x.
Proof. exact sign1_refused. Qed.
Print Assumptions C105_sign1_exceptions_partial.

Theorem C105_sign_exceptions_partial : forall X seed m tag detached x, Forall (fun s => typed_key s /\ sendable_headers s) (sm_signers m) -> sendable_headers (sm_core m) ->
  sign_encode X seed m tag (vopt detached) = Err x -> is_cose_exception x = true \/ x = OverflowError \/ exists s, In s (sm_signers m) /\ sig_refusal X s x.
Proof. exact sign_refused. Qed.
Print Assumptions C105_sign_exceptions_partial.

(** Without a key, or with a payload in both places or in neither, it is always a COSE exception
    (when the protected headers can be serialised). *)
Theorem C105_no_key : forall X seed c s t tag d, ckey c = None -> (exists p, phdr_encoded c = Ok p) ->
  (exists x, sign1_encode X seed (Sign1 c s) tag true (vopt d) = Err x /\ is_cose_exception x = true) /\
  (exists x, enc0_encode X c tag true = Err x /\ is_cose_exception x = true) /\
  (exists x, snd (mac0_encode X (Mac0 c t) tag true) = Err x /\ is_cose_exception x = true).
Proof.
  intros X seed c s t tag d HK (p & HP). split; [|split].
  - unfold sign1_encode. cbn [s1_core]. rewrite HP. cbn [bind]. unfold compute_signature. destruct (get_attr c Algorithm) as [a|e] eqn:E.
    + cbn [bind]. unfold key_verification. rewrite HK. cbn [bind]. eauto.
    + apply CheckProofs.get_attr_err in E. subst e. cbn [bind]. eauto.
  - unfold enc0_encode. rewrite HP. cbn [bind]. unfold enc_encrypt. rewrite HK. cbn [bind]. eauto.
  - unfold mac0_encode. cbn [m0_core]. rewrite HP. unfold mac0_compute_tag, mac_compute. cbn [m0_core]. destruct (get_attr c Algorithm) as [a|e] eqn:E.
    + cbn [bind]. rewrite HK. cbn [snd]. eauto.
    + apply CheckProofs.get_attr_err in E. subst e. cbn [bind snd]. eauto.
Qed.
Print Assumptions C105_no_key.

(** ** What goes wrong *)

(** A COSE_Sign message without signers is encoded: nothing is signed. *)
Theorem C105_no_signers_refuted : forall X seed c tag d, sendable_headers c -> only never (sign_encode X seed (SignMsg c []) tag d) /\
  (forall p, phdr_encoded c = Ok p -> sign_encode X seed (SignMsg c []) tag d = emit c 98 tag [VBytes p; VDict (uhdr c); vopt (payload c)]).
Proof.
  intros X seed c tag d HH. split.
  - unfold sign_encode. cbn [sm_core sm_signers]. apply SendProofs.only_bind; [apply SendProofs.send_phdr; exact HH|]. intros p _. cbn [bind]. apply SendProofs.send_emit.
    destruct HH as [_ HU]. cbn [forallb sendable] in HU |- *. rewrite SendProofs.sendable_vopt, HU. reflexivity.
  - intros p HP. unfold sign_encode. cbn [sm_core sm_signers]. rewrite HP. reflexivity.
Qed.
Print Assumptions C105_no_signers_refuted.

Definition ex_wrong_type : core := Core [(Algorithm, alg (-7))] None [] [] false (Some (bs "hi")) [] (Some PropMsg.ex_okp).
Definition ex_public : core := Core [(Algorithm, alg (-7))] None [] [] false (Some (bs "hi")) [] (Some
  (Key KEC2 [(VClass KpKty, KtyEC2); (VClass EC2KpCurve, VClass (Cls FCrv 1)); (VClass EC2KpX, VBytes [x07]); (VClass EC2KpY, VBytes [x08])] [])).
Definition ex_plain (hs : dict) (p : option bytes) (k : key) : core := Core [] None hs [] false p [] (Some k).
Definition ex_based : key := Key KSym [(VClass KpKty, KtySymmetric); (VClass SymKpK, VBytes (repeat x2a 16)); (VClass KpBaseIV, VBytes (repeat x01 12))] [].

Lemma ex_okp_key_typed : typed PropMsg.ex_okp.
Proof.
  split; [intros v H; discriminate H|]. split; [intros v H; discriminate H|]. split; [intros v H; discriminate H|]. split; [intros e []|].
  split; [eexists; reflexivity|]. intros v H. vm_compute in H. injection H as <-. eauto.
Qed.

(** A message is signed with ES256 by the key of another signature scheme. *)
Theorem C105_key_type_refuted : typed PropMsg.ex_okp /\ sendable_headers ex_wrong_type /\ ~ signs ex_wrong_type /\
  exists b, sign1_encode toy 0 (Sign1 ex_wrong_type (VBytes [])) true true VNone = Ok b.
Proof.
  split; [exact ex_okp_key_typed|]. split; [split; reflexivity|]. split.
  - intros (z & k & (HA & HK & _) & HZ & _). vm_compute in HA. injection HA as <-. cbn [ckey ex_wrong_type] in HK. injection HK as <-. vm_compute in HZ. discriminate.
  - eexists. vm_compute. reflexivity.
Qed.
Print Assumptions C105_key_type_refuted.

(** Missing parts that raise something else than a COSE exception, with any primitives: the
    payload of a MAC or of an encryption, the algorithm, the partial IV, the private part. *)
Theorem C105_exceptions_refuted : forall X seed tag,
  snd (mac0_encode X (Mac0 (ex_plain [(Algorithm, alg 5)] None ex_sym) (VBytes [])) tag true) = Err ValueError /\
  snd (mac0_encode X (Mac0 (ex_plain [] (Some (bs "hi")) ex_sym) (VBytes [])) tag true) = Err AttributeError /\
  enc0_encode X (ex_plain [(Algorithm, alg 1); (IV, VBytes (repeat x07 12))] None ex_sym) tag true = Err TypeError /\
  enc0_encode X (ex_plain [(Algorithm, alg 1)] (Some (bs "hi")) ex_based) tag true = Err TypeError /\
  sign1_encode X seed (Sign1 ex_public (VBytes [])) tag true VNone = Err ValueError /\
  forallb (fun x => negb (is_cose_exception x)) [ValueError; AttributeError; TypeError] = true.
Proof.
  intros X seed tag. do 5 (split; [destruct tag; vm_compute; reflexivity|]). reflexivity.
Qed.
Print Assumptions C105_exceptions_refuted.

(** ** The hypotheses are met *)

(** Primitives that refuse empty numbers. *)
Definition strict : crypto :=
  let q0 (q : rsa_priv) := existsb (N.eqb 0) [rsa_p q; rsa_q q; rsa_d q; rsa_dmp1 q; rsa_dmq1 q; rsa_iqmp q] in
  {| x_hash := x_hash toy; x_hmac := x_hmac toy; x_aes := x_aes toy; x_gcm_enc := x_gcm_enc toy; x_gcm_dec := x_gcm_dec toy; x_ccm_enc := x_ccm_enc toy;
     x_ccm_dec := x_ccm_dec toy; x_wrap := x_wrap toy; x_unwrap := x_unwrap toy;
     x_rsa_sign := fun p h q n t => if q0 q then Err ValueError else x_rsa_sign toy p h q n t;
     x_rsa_verify := x_rsa_verify toy; x_oaep_enc := x_oaep_enc toy; x_oaep_dec := x_oaep_dec toy; x_ecdsa_sign := x_ecdsa_sign toy; x_ecdsa_verify := x_ecdsa_verify toy;
     x_ed_sign := fun c d t => match d with [] => Err ValueError | _ => x_ed_sign toy c d t end;
     x_ed_verify := x_ed_verify toy; x_ec_pub := x_ec_pub toy; x_ec_point := x_ec_point toy; x_ec_gen := x_ec_gen toy; x_ecdh := x_ecdh toy; x_hkdf := x_hkdf toy;
     x_okp_gen := x_okp_gen toy; x_okp_pub := x_okp_pub toy; x_rsa_gen := x_rsa_gen toy; x_urandom := x_urandom toy |}.

Example C105_law_example : refuses_empty strict.
Proof.
  split.
  - intros c t s H. discriminate H.
  - intros p h q n t s H. cbn [x_rsa_sign strict] in H. cbv zeta in H. destruct (existsb _ _) eqn:E in H; [discriminate|].
    apply Forall_forall. intros v HI ->. assert (HT : existsb (N.eqb 0) [rsa_p q; rsa_q q; rsa_d q; rsa_dmp1 q; rsa_dmq1 q; rsa_iqmp q] = true)
      by (apply existsb_exists; exists 0%N; split; [exact HI|reflexivity]). congruence.
Qed.

Example C105_example :
  (typed_key ex_signer /\ exists b, sign1_encode strict 0 (Sign1 ex_signer (VBytes [])) true true VNone = Ok b) /\
  (forall k, ckey ex_signer = Some k -> declares ex_signer (sig_algorithm (k_cls k))) /\
  (exists b, sign_encode strict 0 (SignMsg ex_signer [ex_signer; ex_signer]) true VNone = Ok b) /\
  (typed_key (e_core (ex_enc [])) /\ byte_iv_headers (e_core (ex_enc [])) /\ exists b, enc0_encode toy (e_core (ex_enc [])) true true = Ok b) /\
  (exists b, snd (mac0_encode toy (Mac0 (mm_core (ex_mac [])) VNone) true true) = Ok b) /\
  (typed_key (r_core (ex_kw 0 (Some ex_sym) [])) /\ exists b, snd (encm_encode toy 0 (ex_enc [ex_kw 0 (Some ex_sym) []]) true true) = Ok b) /\
  (exists b, snd (macm_encode toy 0 (ex_mac [ex_direct 0]) true true) = Ok b).
Proof.
  assert (HS : typed ex_sym) by apply (ex_sym_permits (e_core (ex_enc [])) 1 [] eq_refl eq_refl).
  split; [|split; [|split; [|split; [|split; [|split]]]]].
  - split; [|eexists; vm_compute; reflexivity]. intros k HK. destruct ex_signer_signs as [_ (z & k' & (_ & HK' & HT & _) & _)]. rewrite HK in HK'. injection HK' as ->. exact HT.
  - intros k HK. injection HK as <-. exists (-7)%Z. split; [reflexivity|]. left. reflexivity.
  - eexists. vm_compute. reflexivity.
  - split; [intros k HK; injection HK as <-; exact HS|]. split; [|eexists; vm_compute; reflexivity].
    intros h v [<-|[<-|[]]] H; vm_compute in H; injection H as <-; eauto.
  - eexists. vm_compute. reflexivity.
  - split; [intros k HK; injection HK as <-; exact HS|]. eexists. vm_compute. reflexivity.
  - eexists. vm_compute. reflexivity.
Qed.

(** The refusals of the exception theorems are met by the messages above. *)
Example C105_refusals_example : typed_key ex_public /\ sendable_headers ex_public /\ sig_refusal toy ex_public ValueError /\
  mac_refusal (ex_plain [(Algorithm, alg 5)] None ex_sym) ValueError.
Proof.
  split; [|split; [split; reflexivity|split]].
  - intros k HK. injection HK as <-. split; [intros v H; discriminate H|]. split; [intros v H; discriminate H|]. split; [intros v H; discriminate H|].
    split; [intros e []|]. split; [exists [x07]; split; [reflexivity|discriminate]|]. split; [exists [x08]; split; [reflexivity|discriminate]|]. eexists. reflexivity.
  - right. left. split; [cbn; auto|]. intros (k & HK & _ & HC). injection HK as <-. destruct HC as (b & HB & _). discriminate HB.
  - right. left. split; reflexivity.
Qed.
