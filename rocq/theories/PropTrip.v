(** Round trips: keys (C37, C39, C62). *)
From Coq Require Import NArith ZArith Bool String.
From Coq Require Import Init.Byte List.
From Verif Require Import Bytes Value Cbor SpecData Registry Crypto Toy Keys Algorithms Headers Messages Recipients
  SpecRegistry SpecKeys SpecHdr SpecTrip KeyTrip KeyTrip2 KeyTrip3.
Import ListNotations.

(** ** C37: COSE_Key encode then decode gives an equal key *)

(** Every key of the constructors: encoding gives bytes that decode to a key of the same
    type with the same parameters. (The model's OverflowError stands for values that
    have no CBOR encoding at all, such as text with lone surrogates.) Missing from the
    full statement: multi-prime RSA keys, type-specific parameters passed as optional
    ones, and optional values that are not plain data. *)
Theorem C37_encode_decode_partial : forall X k, built X k ->
  key_encode k = Err OverflowError \/
  exists b k', key_encode k = Ok b /\ key_decode X (VBytes b) = Ok k' /\ same_key k k'.
Proof.
  intros X k HB. pose proof (built_portable X k HB) as HP.
  destruct (portable_encode X k HP) as [[b HE]|HE]; [right|left; assumption].
  destruct (portable_trip X k b [] HP HE) as (k' & HD & HS). rewrite app_nil_r in HD. eauto.
Qed.
Print Assumptions C37_encode_decode_partial.

(** And every key whose parameters are well-typed and complete, however it came about. *)
Theorem C37_portable_partial : forall X k, portable X k ->
  key_encode k = Err OverflowError \/
  exists b k', key_encode k = Ok b /\ key_decode X (VBytes b) = Ok k' /\ same_key k k'.
Proof.
  intros X k HP.
  destruct (portable_encode X k HP) as [[b HE]|HE]; [right|left; assumption].
  destruct (portable_trip X k b [] HP HE) as (k' & HD & HS). rewrite app_nil_r in HD. eauto.
Qed.
Print Assumptions C37_portable_partial.

(** An EC2 private key with an algorithm, key operations, a key id and an unregistered
    parameter, given under mixed spellings. *)
Definition ex_options : dict :=
  [(VStr (bs "alg"), VStr (bs "ES256")); (VInt 4, VList [VStr (bs "SIGN"); VInt 2]); (VClass KpKid, VBytes [x0a]);
   (VInt (-70000), VList [VInt 1; VStr (bs "x")]); (VStr (bs "note"), VDict [(VInt 1, VBool true)])].
Definition ex_key : result key :=
  ec2_init toy (VStr (bs "P_256")) (VBytes []) (VBytes []) (VBytes [x05]) (VDict ex_options) true.
Ltac in_list := cbn; repeat (first [left; reflexivity | right]).
Ltac unknown := let E := fresh in let c := fresh in let n := fresh in let HI := fresh in
  cbn [unknown_attr]; first [intros ? E; injection E as <-|idtac]; intros c n HI; cbn in HI;
  repeat (destruct HI as [HI|HI]; [injection HI as <- <-; discriminate|]); destruct HI.
Lemma ex_options_ok : options_ok KEC2 (VDict ex_options).
Proof.
  right. eexists. split; [reflexivity|]. unfold ex_options.
  apply Forall_cons. { apply (OO_alg KEC2 (bs "ALG") _ _ (Cls FAlg (-7)) (bs "ES256")); [apply kp_names|reflexivity|in_list|reflexivity]. }
  apply Forall_cons.
  { eapply OO_ops; [apply kp_names|reflexivity|]. apply Forall_cons; [exists (Cls FOps 1), (bs "SIGN"); split; [in_list|reflexivity]|].
    apply Forall_cons; [exists (Cls FOps 2), (bs "VERIFY"); split; [in_list|reflexivity]|apply Forall_nil]. }
  apply Forall_cons. { eapply OO_kid; [apply kp_names|reflexivity|reflexivity]. }
  apply Forall_cons. { apply OO_int; [unknown|reflexivity]. }
  apply Forall_cons. { apply OO_text; [unknown|reflexivity]. }
  apply Forall_nil.
Qed.
Example C37_example : exists k b k', ex_key = Ok k /\ built toy k /\ key_encode k = Ok b /\
  key_decode toy (VBytes b) = Ok k' /\ same_key k k' /\ has k EC2KpY /\ has k KpKeyOps.
Proof.
  destruct ex_key as [k|] eqn:E; [|vm_compute in E; discriminate].
  unfold ex_key in E.
  assert (HB : built toy k) by (exact (BuiltEC2 toy _ _ _ _ _ _ k ex_options_ok E)).
  destruct (C37_encode_decode_partial toy k HB) as [HO|(b & k' & HE & HD & HS)].
  { vm_compute in E. injection E as <-. vm_compute in HO. discriminate. }
  exists k, b, k'. split; [reflexivity|]. vm_compute in E. injection E as <-.
  split; [assumption|]. split; [assumption|]. split; [assumption|]. split; [assumption|].
  split; vm_compute; discriminate.
Qed.

(** The claim fails when a type-specific parameter arrives as an optional one: the RSA
    constructor checks its arguments only, the decoder then sees an incomplete key. *)
Theorem C37_rsa_optional_refuted : forall X, exists k b,
  rsa_init (RsaArgs (VBytes [x0b]) (VBytes [x03]) (VBytes []) (VBytes []) (VBytes []) (VBytes []) (VBytes []) (VBytes [])
    VNone (VBytes []) (VBytes []) (VBytes [])) (VDict [(VClass RSAKpD, VBytes [x07])]) true = Ok k /\
  key_encode k = Ok b /\ key_decode X (VBytes b) = Err CoseInvalidKey.
Proof.
  intros X. eexists. eexists. split; [vm_compute; reflexivity|]. split; [vm_compute; reflexivity|]. vm_compute. reflexivity.
Qed.
Print Assumptions C37_rsa_optional_refuted.

(** ** C62: RSA multi-prime parameters survive serialisation *)

(** They never do: what is decoded has everything else, but none of the four. *)
Theorem C62_multi_prime_refuted : forall X a opt allow k b,
  rsa_typed a -> rsa_multi_prime_form a -> options_ok KRSA opt -> rsa_init a opt allow = Ok k -> key_encode k = Ok b ->
  exists k', key_decode X (VBytes b) = Ok k' /\ k_cls k' = k_cls k /\ (forall r, dget (k_store k') r = dget (k_store k) r) /\
    k_extra k = [(VStr (bs "other"), ra_other a); (VStr (bs "r_i"), ra_ri a); (VStr (bs "d_i"), ra_di a); (VStr (bs "t_i"), ra_ti a)] /\
    k_extra k' = [] /\ Forall (fun p => param k' p = None) [RSAKpOther; RSAKpRi; RSAKpDi; RSAKpTi].
Proof. exact multi_prime_lost. Qed.
Print Assumptions C62_multi_prime_refuted.

Example C62_example :
  let a := RsaArgs (VBytes [x0b]) (VBytes [x03]) (VBytes [x07]) (VBytes [x05]) (VBytes [x09]) (VBytes [x01]) (VBytes [x02]) (VBytes [x04])
    (VList [VBytes [x0c]]) (VBytes [x0d]) (VBytes [x0e]) (VBytes [x0f]) in
  rsa_typed a /\ rsa_multi_prime_form a /\ exists k b, rsa_init a VNone true = Ok k /\ key_encode k = Ok b.
Proof.
  intros a. split.
  { split; [repeat (apply Forall_cons; [eexists; reflexivity|]); apply Forall_nil|right; eexists; reflexivity]. }
  split.
  { repeat (apply Forall_cons; [intros [Q|[Q|Q]]; discriminate|]); apply Forall_nil. }
  eexists. eexists. split; [vm_compute; reflexivity|vm_compute; reflexivity].
Qed.

(** What the claim comes to for keys without those parameters: C37. *)
Theorem C62_two_prime_partial : forall X n e d p q dp dq qinv k,
  rsa_init (RsaArgs n e d p q dp dq qinv VNone (VBytes []) (VBytes []) (VBytes [])) VNone true = Ok k ->
  key_encode k = Err OverflowError \/
  exists b k', key_encode k = Ok b /\ key_decode X (VBytes b) = Ok k' /\ same_key k k'.
Proof.
  intros X n e d p q dp dq qinv k H. apply C37_encode_decode_partial. eapply BuiltRSA; [left; reflexivity|left; reflexivity|exact H].
Qed.
Print Assumptions C62_two_prime_partial.

(** ** C39: from_dict accepts any spelling of key parameters with the same result *)

(** The same parameters under other spellings give the same key, or the same error. *)
Theorem C39_spelling_partial : forall X c d d', respelled c d d' -> distinct_keys d = true ->
  (forall v, dget d (VClass KpKty) = Some v -> names_kty c v) ->
  from_dict X (VDict d') = from_dict X (VDict d).
Proof. exact respelled_from_dict. Qed.
Print Assumptions C39_spelling_partial.

Example C39_example :
  let d := [(VClass KpKty, VClass (Cls FKty 1)); (VClass OKPKpCurve, VInt 6); (VClass OKPKpX, VBytes [x01]);
            (VClass KpAlg, VStr (bs "EDDSA")); (VInt 70000, VNone)] in
  let d' := [(VStr (bs "KTY"), VClass (Cls FKty 1)); (VInt (-1), VInt 6); (VStr (bs "X"), VBytes [x01]);
             (VInt 3, VStr (bs "EDDSA")); (VInt 70000, VNone)] in
  respelled KOKP d d' /\ distinct_keys d = true /\ (exists k, from_dict toy (VDict d') = Ok k /\ has k OKPKpX) /\
  forall v, dget d (VClass KpKty) = Some v -> names_kty KOKP v.
Proof.
  intros d d'. split.
  { apply Forall2_cons. { split; [|reflexivity]. apply Sp_name. in_list. }
    apply Forall2_cons. { split; [|reflexivity]. apply (Sp_id KOKP OKPKpCurve (bs "CURVE")). in_list. }
    apply Forall2_cons. { split; [|reflexivity]. apply Sp_name. in_list. }
    apply Forall2_cons. { split; [|reflexivity]. apply (Sp_id KOKP KpAlg (bs "ALG")). in_list. }
    apply Forall2_cons. { split; [|reflexivity]. apply Sp_int. unknown. }
    apply Forall2_nil. }
  split; [reflexivity|]. split.
  { eexists. split; [vm_compute; reflexivity|]. vm_compute. discriminate. }
  intros v HV. cbn in HV. injection HV as <-. eexists. split; [reflexivity|left; reflexivity].
Qed.

(** With several spellings of one of a key type's own parameters, the class wins over the
    id and the id over the name: the overridden entry might as well not be there. *)
Theorem C39_precedence_partial : forall X c d p n s v, distinct_keys d = true ->
  given d KpKty (bs "KTY") v -> names_kty c v ->
  In p (own_params c) -> In (p, n) (registered (params_of c)) -> overridden d p n s ->
  from_dict X (VDict (ddel d s)) = from_dict X (VDict d).
Proof. exact precedence_own. Qed.
Print Assumptions C39_precedence_partial.

Example C39_precedence_example :
  let d := [(VStr (bs "K"), VBytes (repeat x01 16)); (VInt 1, VInt 4); (VClass SymKpK, VBytes (repeat x02 16)); (VInt (-1), VBytes (repeat x03 16))] in
  given d KpKty (bs "KTY") (VInt 4) /\ names_kty KSym (VInt 4) /\ overridden d SymKpK (bs "K") (VStr (bs "K")) /\
  overridden d SymKpK (bs "K") (VInt (-1)) /\
  exists k, from_dict toy (VDict d) = Ok k /\ param k SymKpK = Some (VBytes (repeat x02 16)).
Proof.
  intros d. split; [right; left; split; reflexivity|]. split; [eexists; split; [reflexivity|right; left; reflexivity]|].
  split; [left; split; [discriminate|right; reflexivity]|]. split; [left; split; [discriminate|left; reflexivity]|].
  eexists. split; [vm_compute; reflexivity|]. vm_compute. reflexivity.
Qed.

(** For the parameters common to all key types the last spelling wins instead. *)
Theorem C39_precedence_refuted : forall X a b, exists k,
  from_dict X (VDict [(VClass KpKty, VClass (Cls FKty 4)); (VClass SymKpK, VBytes (repeat x01 16));
    (VClass KpKid, VBytes a); (VInt 2, VBytes b)]) = Ok k /\ param k KpKid = Some (VBytes b).
Proof. intros X a b. eexists. split; [vm_compute; reflexivity|]. vm_compute. reflexivity. Qed.
Print Assumptions C39_precedence_refuted.
