(** C92: which exceptions checking and decrypting a received message can raise.

    Vocabulary: SpecCheck.v. [typed k]: the parameters of the key have their documented types.
    [equip c k a]: the received object with key [k] and external data [a]. In full the property
    is "a COSE exception, or an exception of the primitive"; the [surprise] predicates list the
    other exceptions and the messages and keys for which they are raised. *)
From Coq Require Import NArith ZArith Bool String.
From Coq Require Import Init.Byte List.
From Verif Require Import Bytes Value ValueProofs Cbor Registry Crypto Toy Keys Algorithms Headers Messages Recipients.
From Verif Require Import SpecKeys SpecHdr SpecMsg SpecAlg SpecAccept SpecCheck HdrProofs CheckProofs PropKeys.
Import ListNotations.

Theorem C92_verify_tag_partial : forall X e allow b k a x, typed k ->
  (forall m, decode X e allow (VBytes b) = Ok (MMac0 m) ->
     mac0_verify_tag X (Mac0 (equip (m0_core m) k a) (m0_tag m)) = Err x ->
     is_cose_exception x = true \/ mac_surprise (equip (m0_core m) k a) x) /\
  (forall m, decode X e allow (VBytes b) = Ok (MMac m) ->
     macm_verify_tag X (MacMsg (equip (mm_core m) k a) (mm_tag m) (mm_rcpts m)) = Err x ->
     is_cose_exception x = true \/ mac_surprise (equip (mm_core m) k a) x).
Proof.
  intros X e allow b k a x HT. split; intros m HD H; apply decode_inv in HD as (b' & obj & _ & _ & _ & _ & rest & HC);
    destruct (received_object X allow obj _ rest k a HC) as (HE & _ & HK).
  all: eapply mac_verify_err; [|exact HE|exact HK|exact HT|exact H]; reflexivity.
Qed.
Print Assumptions C92_verify_tag_partial.

(** [d]: the detached payload, if any. *)
Theorem C92_verify_signature_partial : forall X e allow b k a d x, typed k ->
  (forall m, decode X e allow (VBytes b) = Ok (MSign1 m) ->
     sign1_verify X (Sign1 (equip (s1_core m) k a) (s1_sig m)) (vopt d) = Err x ->
     is_cose_exception x = true \/ sig_surprise X (equip (s1_core m) k a) (equip (s1_core m) k a) (k_cls k) (s1_sig m) d x) /\
  (forall m s, decode X e allow (VBytes b) = Ok (MSign m) -> In s (sm_signers m) ->
     signer_verify X (Some (sm_core m)) (equip s k a) (vopt d) = Err x ->
     is_cose_exception x = true \/ sig_surprise X (sm_core m) (equip s k a) (k_cls k) (vopt (payload s)) d x).
Proof.
  intros X e allow b k a d x HT. split.
  - intros m HD H. apply decode_inv in HD as (b' & obj & _ & _ & _ & _ & rest & HC). destruct (received_object X allow obj _ rest k a HC) as (HE & _ & HK).
    eapply (verify_signature_err X (equip (s1_core m) k a)); [exact HK|exact HT| |exact H]. intros y HY. apply sign1_structure_err in HY; assumption.
  - intros m s HD HI H. apply decode_inv in HD as (b' & obj & _ & _ & _ & HF & rest & HC). cbn [message_tag message_core] in *.
    assert (HS : sign_from_obj X allow obj = Ok m).
    { unfold from_cose_obj in HF. cbn in HF. apply bind_ok in HF as (m' & HF & HE). injection HE as <-. exact HF. }
    destruct (received_signer X allow obj m s HS HI) as (l & rest' & HR). destruct (received_object X allow l s rest' k a HR) as (HE & _ & HK).
    eapply (verify_signature_err X (sm_core m)); [exact HK|exact HT| |exact H]. intros y HY. apply signer_structure_err in HY; [exact HY| |exact HE].
    exact (received_protected X allow obj _ rest HC).
Qed.
Print Assumptions C92_verify_signature_partial.

Theorem C92_decrypt_partial : forall X e allow b k a c x, typed k -> decode X e allow (VBytes b) = Ok (MEnc0 c) ->
  enc0_decrypt X (equip c k a) = Err x -> is_cose_exception x = true \/ enc_surprise X (equip c k a) k x.
Proof.
  intros X e allow b k a c x HT HD H. apply decode_inv in HD as (b' & obj & _ & _ & _ & _ & rest & HC).
  destruct (received_object X allow obj _ rest k a HC) as (HE & HI & HK). eapply enc_decrypt_err; [|exact HE|exact HI|exact HK|exact HT|exact H]. reflexivity.
Qed.
Print Assumptions C92_decrypt_partial.

(** The keys the constructors make are typed, unless the optional parameters hold an algorithm,
    base IV or OKP x of another type. *)
Theorem C92_constructed_keys_partial : forall X k, constructed X k ->
  (forall v, param k KpAlg = Some v -> exists a, v = VClass a) ->
  (forall v, param k KpBaseIV = Some v -> exists b, v = VBytes b) ->
  (forall v, k_cls k = KOKP -> param k OKPKpX = Some v -> exists b, v = VBytes b) -> typed k.
Proof. exact constructed_typed. Qed.
Print Assumptions C92_constructed_keys_partial.

Definition is_typed (k : key) : bool :=
  match param k KpAlg with None => true | Some (VClass _) => true | _ => false end &&
  match param k KpBaseIV with None => true | Some (VBytes _) => true | _ => false end &&
  match param k OKPKpX with None => true | Some (VBytes _) => true | _ => false end.
Lemma is_typed_ok : forall X k, constructed X k -> is_typed k = true -> typed k.
Proof.
  intros X k HC H. unfold is_typed in H. apply andb_prop in H as [H H3]. apply andb_prop in H as [H1 H2]. apply (C92_constructed_keys_partial X k HC).
  - intros v HV. rewrite HV in H1. destruct v; try discriminate. eauto.
  - intros v HV. rewrite HV in H2. destruct v; try discriminate. eauto.
  - intros v _ HV. rewrite HV in H3. destruct v; try discriminate. eauto.
Qed.
Lemma ex_sym_typed : typed (got ex_sym).
Proof.
  apply (is_typed_ok toy); [|vm_compute; reflexivity]. assert (H : ex_sym = Ok (got ex_sym)) by (vm_compute; reflexivity).
  generalize dependent (got ex_sym). intros k H. unfold ex_sym in H. eapply ConSym. exact H.
Qed.
Lemma ex_okp_typed : typed (got ex_okp).
Proof.
  apply (is_typed_ok toy); [|vm_compute; reflexivity]. assert (H : ex_okp = Ok (got ex_okp)) by (vm_compute; reflexivity).
  generalize dependent (got ex_okp). intros k H. unfold ex_okp in H. eapply ConOKP. exact H.
Qed.
Lemma ex_ec2_typed : typed (got ex_ec2).
Proof. apply (is_typed_ok toy); [exact ex_ec2_constructed|vm_compute; reflexivity]. Qed.

(** Messages an attacker can send. *)
Definition no_algorithm : bytes := [xd1; x84; x40; xa0; x41; x00; x40].               (* Mac0, no headers *)
Definition no_payload : bytes := [xd1; x84; x43; xa1; x01; x05; xa0; xf6; x40].       (* Mac0, HMAC 256, nil payload *)
Definition text_signature : bytes := [xd2; x84; x43; xa1; x01; x27; xa0; x41; x00; x61; x61]. (* Sign1, EdDSA, signature "a" *)
Definition wrong_algorithm : bytes := [xd2; x84; x43; xa1; x01; x26; xa0; x41; x00; x40].     (* Sign1, ES256 *)
Definition no_ciphertext : bytes := [xd0; x83; x43; xa1; x01; x01; xa1; x05; x41; x00; xf6].  (* Encrypt0, A128GCM, nil *)

(** False in full. *)
Theorem C92_cose_exceptions_refuted : forall X, typed (got ex_sym) /\ typed (got ex_okp) /\
  exists m1 m2 m3 m4 c5,
  decode X None true (VBytes no_algorithm) = Ok (MMac0 m1) /\
  mac0_verify_tag X (Mac0 (equip (m0_core m1) (got ex_sym) []) (m0_tag m1)) = Err AttributeError /\
  decode X None true (VBytes no_payload) = Ok (MMac0 m2) /\
  mac0_verify_tag X (Mac0 (equip (m0_core m2) (got ex_sym) []) (m0_tag m2)) = Err ValueError /\
  decode X None true (VBytes text_signature) = Ok (MSign1 m3) /\
  sign1_verify X (Sign1 (equip (s1_core m3) (got ex_okp) []) (s1_sig m3)) VNone = Err TypeError /\
  decode X None true (VBytes wrong_algorithm) = Ok (MSign1 m4) /\
  sign1_verify X (Sign1 (equip (s1_core m4) (got ex_okp) []) (s1_sig m4)) VNone = Err AttributeError /\
  decode X None true (VBytes no_ciphertext) = Ok (MEnc0 c5) /\
  enc0_decrypt X (equip c5 (got ex_sym) []) = Err TypeError /\
  forallb is_cose_exception [AttributeError; ValueError; TypeError] = false.
Proof.
  intros X. split; [exact ex_sym_typed|]. split; [exact ex_okp_typed|]. do 5 eexists.
  do 10 (split; [vm_compute; reflexivity|]). vm_compute. reflexivity.
Qed.
Print Assumptions C92_cose_exceptions_refuted.

(** The hypotheses are met: a Sign1 message checked with a key without the right, a Mac0 message
    checked with an OKP key, an Encrypt0 message decrypted without IV. All raise COSE exceptions. *)
Example C92_example :
  exists m1 m2 c3,
  decode toy None true (VBytes wrong_algorithm) = Ok (MSign1 m1) /\
  sign1_verify toy (Sign1 (equip (s1_core m1) (got ex_sym) []) (s1_sig m1)) VNone = Err CoseException /\
  decode toy None true (VBytes [xd1; x84; x43; xa1; x01; x05; xa0; x41; x00; x40]) = Ok (MMac0 m2) /\
  mac0_verify_tag toy (Mac0 (equip (m0_core m2) (got ex_okp) []) (m0_tag m2)) = Err CoseException /\
  decode toy None true (VBytes [xd0; x83; x43; xa1; x01; x01; xa0; x41; x00]) = Ok (MEnc0 c3) /\
  enc0_decrypt toy (equip c3 (got ex_sym) []) = Err CoseException.
Proof. do 3 eexists. do 5 (split; [vm_compute; reflexivity|]). vm_compute. reflexivity. Qed.
