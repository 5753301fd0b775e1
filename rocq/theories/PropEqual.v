(** C110: equality of keys. *)
From Coq Require Import NArith ZArith Bool String.
From Coq Require Import Init.Byte List.
From Verif Require Import Bytes Value Cbor Registry Crypto Toy ValueProofs Keys Algorithms Headers Messages SpecKeys SpecTrip SpecMapping SpecEqual
  KeyTrip KeyTrip2 CheckProofs2 EqualProofs PropKeys PropTrip.
Import ListNotations.

Definition is_key (X : crypto) (k : key) : Prop := reachable X k /\ well_formed (VDict (k_store k)) = true.

(** ** [==] is an equivalence *)

Theorem C110_reflexive_partial : forall X k, is_key X k -> equal_keys k k.
Proof. intros X k [HR HW]. apply (equal_pyeq X k k HR HR). apply pyeq_refl. exact HW. Qed.
Print Assumptions C110_reflexive_partial.

Theorem C110_symmetric_partial : forall X k k', is_key X k -> is_key X k' -> equal_keys k k' -> equal_keys k' k.
Proof. intros X k k' [HR HW] [HR' HW'] H. apply (equal_pyeq X k' k HR' HR). apply pyeq_sym; [exact HW|exact HW'|]. apply (equal_pyeq X k k' HR HR'). exact H. Qed.
Print Assumptions C110_symmetric_partial.

Theorem C110_transitive_partial : forall X k1 k2 k3, is_key X k1 -> is_key X k2 -> is_key X k3 -> equal_keys k1 k2 -> equal_keys k2 k3 -> equal_keys k1 k3.
Proof.
  intros X k1 k2 k3 [R1 W1] [R2 W2] [R3 W3] H1 H2. apply (equal_pyeq X k1 k3 R1 R3).
  apply (pyeq_trans _ (VDict (k_store k2))); [exact W1|exact W2|exact W3|apply (equal_pyeq X k1 k2 R1 R2); exact H1|apply (equal_pyeq X k2 k3 R2 R3); exact H2].
Qed.
Print Assumptions C110_transitive_partial.

(** [==] always answers. *)
Theorem C110_answers_partial : forall X k k', reachable X k -> reachable X k' -> exists b, key_eq k k' = Ok b.
Proof. intros X k k' HR HR'. rewrite (key_eq_maps X k k' HR HR'). eauto. Qed.
Print Assumptions C110_answers_partial.

(** ** Equal keys do the same *)

(** Two complete keys that are equal are of the same type and give the same result in every
    operation, for every implementation of the primitives. *)
Theorem C110_interchangeable_partial : forall X k k', reachable X k -> reachable X k' -> portable X k -> portable X k' -> equal_keys k k' ->
  k_cls k' = k_cls k /\ interchangeable X k k'.
Proof.
  intros X k k' HR HR' HP HP' HE. split; [apply (same_typed X k k' HR HR' HP HP' HE)|]. exact (equal_interchangeable X k k' HR HR' HP HP' HE).
Qed.
Print Assumptions C110_interchangeable_partial.

(** So does a message when its key is replaced by an equal one. *)
Theorem C110_messages_partial : forall X k k' c, reachable X k -> reachable X k' -> portable X k -> portable X k' -> equal_keys k k' ->
  (forall seed s tag d, sign1_encode X seed (Sign1 (rekey c k) s) tag true d = sign1_encode X seed (Sign1 (rekey c k') s) tag true d) /\
  (forall s d, sign1_verify X (Sign1 (rekey c k) s) d = sign1_verify X (Sign1 (rekey c k') s) d) /\
  (forall tag, enc0_encode X (rekey c k) tag true = enc0_encode X (rekey c k') tag true) /\
  enc0_decrypt X (rekey c k) = enc0_decrypt X (rekey c k') /\
  (forall t tag, snd (mac0_encode X (Mac0 (rekey c k) t) tag true) = snd (mac0_encode X (Mac0 (rekey c k') t) tag true)) /\
  (forall t, mac0_verify_tag X (Mac0 (rekey c k) t) = mac0_verify_tag X (Mac0 (rekey c k') t)).
Proof. intros X k k' c HR HR' HP HP' HE. exact (equal_messages X k k' c HR HR' HP HP' HE). Qed.
Print Assumptions C110_messages_partial.

(** ** Round trips are visible to [==] *)

Theorem C110_round_trip_partial : forall X k b k', is_key X k -> portable X k -> key_encode k = Ok b -> key_decode X (VBytes b) = Ok k' -> equal_keys k k'.
Proof.
  intros X k b k' [HR HW] HP HE HD. destruct (portable_trip X k b [] HP HE) as (k2 & HD2 & HS). rewrite app_nil_r in HD2. rewrite HD in HD2. injection HD2 as <-.
  assert (HR' : reachable X k').
  { exists k', []. split; [|reflexivity]. unfold key_decode in HD. apply bind_ok in HD as (v & _ & HD). exact (from_dict_constructed X v k' HD). }
  exact (same_equal X k k' HR HR' HW HS).
Qed.
Print Assumptions C110_round_trip_partial.

(** A key inside another value equals the map of its parameters, both ways. *)
Theorem C110_nested_partial : forall c s e, well_formed (VDict s) = true -> pyeq (VKey c s e) (VDict s) = true /\ pyeq (VDict s) (VKey c s e) = true.
Proof.
  intros c s e HW. pose proof (pyeq_refl (VDict s) HW) as H. split; [rewrite (pyeq_maps (VKey c s e) (VDict s) s s eq_refl eq_refl)|rewrite (pyeq_maps (VDict s) (VKey c s e) s s eq_refl eq_refl)]; exact H.
Qed.
Print Assumptions C110_nested_partial.

(** ** What [==] does not see *)

(** An attribute set on the key object is not compared, but algorithms use it: two equal keys
    give different tags. *)
Definition hmac_with (b : byte) : key := key_run (got ex_ec2) [KSetProp PK (VBytes (repeat b 32))].
Theorem C110_attributes_refuted : exists k k' a t, reachable toy k /\ reachable toy k' /\ equal_keys k k' /\
  exists x y, alg_compute_tag toy a k t = Ok x /\ alg_compute_tag toy a k' t = Ok y /\ x <> y.
Proof.
  exists (hmac_with x01), (hmac_with x02), (VClass (Cls FAlg 5)), [x2a].
  split; [exists (got ex_ec2); eexists; split; [exact ex_ec2_constructed|reflexivity]|]. split; [exists (got ex_ec2); eexists; split; [exact ex_ec2_constructed|reflexivity]|].
  split; [vm_compute; reflexivity|]. eexists. eexists. split; [vm_compute; reflexivity|]. split; [vm_compute; reflexivity|]. vm_compute. discriminate.
Qed.
Print Assumptions C110_attributes_refuted.

(** Equal keys may be sent as different maps: [True == 1]. *)
Definition mk_kid (v : pyval) : result key := sym_init (VBytes (repeat x01 16)) (VDict [(VClass KpKid, v)]) true.
Theorem C110_sent_refuted : exists k k' b b' d d', reachable toy k /\ reachable toy k' /\ equal_keys k k' /\ key_encode k = Ok b /\ key_encode k' = Ok b' /\
  loads (VBytes b) = Ok (VDict d) /\ loads (VBytes b') = Ok (VDict d') /\ dget d (VInt 2) <> dget d' (VInt 2).
Proof.
  exists (got (mk_kid (VBool true))), (got (mk_kid (VInt 1))). do 4 eexists.
  assert (E1 : mk_kid (VBool true) = Ok (got (mk_kid (VBool true)))) by (vm_compute; reflexivity). assert (E2 : mk_kid (VInt 1) = Ok (got (mk_kid (VInt 1)))) by (vm_compute; reflexivity).
  split; [eexists; exists []; split; [eapply ConSym; unfold mk_kid in E1; exact E1|reflexivity]|]. split; [eexists; exists []; split; [eapply ConSym; unfold mk_kid in E2; exact E2|reflexivity]|].
  split; [vm_compute; reflexivity|]. split; [vm_compute; reflexivity|]. split; [vm_compute; reflexivity|]. split; [vm_compute; reflexivity|]. split; [vm_compute; reflexivity|].
  vm_compute. discriminate.
Qed.
Print Assumptions C110_sent_refuted.

(** ** The hypotheses are met *)

(** Two keys built from the same parameters in different order and spelling. *)
Definition ex_one : result key := sym_init (VBytes (repeat x01 16)) (VDict [(VClass KpKid, VBytes [x05]); (VInt 3, VInt 5)]) true.
Definition ex_two : result key := sym_init (VBytes (repeat x01 16)) (VDict [(VStr (bs "ALG"), VStr (bs "HMAC_256")); (VInt 2, VBytes [x05])]) true.

Example C110_example : is_key toy (got ex_one) /\ is_key toy (got ex_two) /\ portable toy (got ex_one) /\ portable toy (got ex_two) /\
  equal_keys (got ex_one) (got ex_two) /\ k_store (got ex_one) <> k_store (got ex_two) /\ interchangeable toy (got ex_one) (got ex_two).
Proof.
  assert (E1 : ex_one = Ok (got ex_one)) by (vm_compute; reflexivity). assert (E2 : ex_two = Ok (got ex_two)) by (vm_compute; reflexivity).
  assert (R1 : reachable toy (got ex_one)) by (exists (got ex_one), []; split; [eapply ConSym; unfold ex_one in E1; exact E1|reflexivity]).
  assert (R2 : reachable toy (got ex_two)) by (exists (got ex_two), []; split; [eapply ConSym; unfold ex_two in E2; exact E2|reflexivity]).
  assert (P1 : portable toy (got ex_one)).
  { apply built_portable. unfold ex_one in E1; eapply BuiltSym; [|exact E1]. right. eexists. split; [reflexivity|]. apply Forall_cons; [|apply Forall_cons; [|apply Forall_nil]]; cbn [fst snd].
    - eapply OO_kid with (n := bs "KID"); [apply kp_names|reflexivity|reflexivity].
    - eapply OO_alg with (n := bs "ALG") (w := Cls FAlg 5) (m := bs "HMAC_256"); [apply kp_names|reflexivity|in_list|reflexivity]. }
  assert (P2 : portable toy (got ex_two)).
  { apply built_portable. unfold ex_two in E2; eapply BuiltSym; [|exact E2]. right. eexists. split; [reflexivity|]. apply Forall_cons; [|apply Forall_cons; [|apply Forall_nil]]; cbn [fst snd].
    - eapply OO_alg with (n := bs "ALG") (w := Cls FAlg 5) (m := bs "HMAC_256"); [apply kp_names|reflexivity|in_list|reflexivity].
    - eapply OO_kid with (n := bs "KID"); [apply kp_names|reflexivity|reflexivity]. }
  assert (EQ : equal_keys (got ex_one) (got ex_two)) by (vm_compute; reflexivity).
  split; [split; [exact R1|vm_compute; reflexivity]|]. split; [split; [exact R2|vm_compute; reflexivity]|]. split; [exact P1|]. split; [exact P2|]. split; [exact EQ|].
  split; [vm_compute; discriminate|]. apply (C110_interchangeable_partial toy); assumption.
Qed.
