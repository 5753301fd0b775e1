(** C108: a received key is complete and well-typed, and can be sent on.

    Vocabulary: SpecRcvKey.v ([key_map], [two_primes]), SpecTrip.v ([portable], [built], [same_key]). *)
From Coq Require Import NArith ZArith Bool String.
From Coq Require Import Init.Byte List.
From Verif Require Import Bytes Value Cbor SpecData Registry Crypto Toy Keys Headers SpecRegistry SpecKeys SpecHdr SpecTrip SpecRcvKey
  KeyTrip2 RcvKeyProofs PropTrip PropHdr.
Import ListNotations.

(** Whatever dictionary [CoseKey.from_dict] takes: the key has every component its type needs and
    nothing ill-typed; it is one of those the constructors build. *)
Theorem C108_from_dict_partial : forall X d k, from_dict X (VDict d) = Ok k -> key_map (k_cls k) d ->
  (k_cls k = KRSA -> two_primes d) -> portable X k /\ built X k.
Proof. intros X d k H HM HT. pose proof (received_built X d k H HM HT) as HB. split; [apply built_portable|]; exact HB. Qed.
Print Assumptions C108_from_dict_partial.

(** So a received key can be sent on: it is encoded, and whoever decodes that has the same key. *)
Theorem C108_forward_partial : forall X b d k, loads (VBytes b) = Ok (VDict d) -> key_decode X (VBytes b) = Ok k -> key_map (k_cls k) d ->
  (k_cls k = KRSA -> two_primes d) ->
  key_encode k = Err OverflowError \/
  exists b' k', key_encode k = Ok b' /\ key_decode X (VBytes b') = Ok k' /\ same_key k k'.
Proof.
  intros X b d k HL H HM HT. unfold key_decode in H. rewrite HL in H. cbn [bind] in H.
  apply C37_portable_partial. apply (C108_from_dict_partial X d k H HM HT).
Qed.
Print Assumptions C108_forward_partial.

(** And so are the keys in the headers of a message, given or received. *)
Theorem C108_header_partial : forall X a c pd ud, core_init X a = Ok c ->
  protected_map (a_phdr a) (a_phdr_encoded a) pd -> unprotected_map (a_uhdr a) ud ->
  forall h n d, In (h, n) (registered FHdr) -> In (c_id h) [-1; -2]%Z ->
  (last_value (spells h n) pd (VDict d) -> exists k, dget (phdr c) (VClass h) = Some (kval k) /\
     (key_map (k_cls k) d -> (k_cls k = KRSA -> two_primes d) -> portable X k)) /\
  (last_value (spells h n) ud (VDict d) -> exists k, dget (uhdr c) (VClass h) = Some (kval k) /\
     (key_map (k_cls k) d -> (k_cls k = KRSA -> two_primes d) -> portable X k)).
Proof.
  intros X a c pd ud H HP HU h n d HI HZ. destruct (C26_constructed_normal X a c H) as (pd' & ud' & HP' & HU' & NP & NU).
  pose proof (PropHdr.protected_map_unique _ _ _ _ HP' HP) as ->. pose proof (PropHdr.unprotected_map_unique _ _ _ HU' HU) as ->.
  assert (HE : forall w, header_value X h (VDict d) w -> exists k, w = kval k /\ (key_map (k_cls k) d -> (k_cls k = KRSA -> two_primes d) -> portable X k)).
  { intros w HW. unfold header_value in HW. destruct HZ as [HZ|[HZ|[]]]; rewrite <- HZ in HW; cbn in HW; destruct HW as (k & HF & ->); exists k;
      (split; [reflexivity|]); intros HM HT; apply (C108_from_dict_partial X d k HF HM HT). }
  split; intros HL; [destruct (proj1 (NP h n HI) _ HL) as (w & HD & HW)|destruct (proj1 (NU h n HI) _ HL) as (w & HD & HW)];
    destruct (HE w HW) as (k & -> & HK); eauto.
Qed.
Print Assumptions C108_header_partial.

(** ** What goes wrong *)

(** A number of the key under its name in lower case is stored unchecked, whatever it is: an OKP
    key with any value for x. *)
Theorem C108_lower_case_refuted : forall X v, exists k,
  from_dict X (VDict [(VInt 1, VInt 1); (VInt (-1), VInt 6); (VInt (-4), VBytes [x01]); (VStr (bs "x"), v)]) = Ok k /\
  param k OKPKpX = Some v /\ ((forall b, v <> VBytes b) -> ~ portable X k).
Proof.
  intros X v. eexists. split; [vm_compute; reflexivity|]. split; [reflexivity|]. intros HV (_ & _ & _ & HF & _). cbn [k_store k_cls] in HF.
  rewrite Forall_forall in HF. pose proof (HF (VClass OKPKpX, v) (or_intror (or_introl eq_refl))) as H. cbn [fst snd] in H. inversion H; subst.
  - cbn in H1. destruct H1 as [E|[]]. discriminate.
  - elim (HV b). reflexivity.
Qed.
Print Assumptions C108_lower_case_refuted.

(** Such a key is encoded, and what is encoded is refused. *)
Theorem C108_not_received_again_refuted : forall X, exists b k b',
  key_decode X (VBytes b) = Ok k /\ key_encode k = Ok b' /\ key_decode X (VBytes b') = Err TypeError.
Proof.
  intros X. pose (m := VDict [(VInt 1, VInt 1); (VInt (-1), VInt 6); (VInt (-4), VBytes [x01]); (VStr (bs "x"), VInt 5)]).
  exists (match dumps cls_fullname HNone m with Ok b => b | Err _ => [] end). eexists. eexists.
  split; [vm_compute; reflexivity|]. split; [vm_compute; reflexivity|vm_compute; reflexivity].
Qed.
Print Assumptions C108_not_received_again_refuted.

(** The same with d: an EC2 key whose private number has nothing to do with its point, for every
    implementation of the curves. *)
Theorem C108_unrelated_private_refuted : forall X x y d, x <> [] -> y <> [] -> exists k,
  from_dict X (VDict [(VInt 1, VInt 2); (VInt (-1), VInt 1); (VInt (-2), VBytes x); (VInt (-3), VBytes y); (VStr (bs "d"), VBytes d)]) = Ok k /\
  bytes_param k EC2KpX x /\ bytes_param k EC2KpY y /\ bytes_param k EC2KpD d.
Proof.
  intros X x y d HX HY. destruct x as [|x0 x]; [elim HX; reflexivity|]. destruct y as [|y0 y]; [elim HY; reflexivity|].
  eexists. split; [vm_compute; reflexivity|]. repeat split; vm_compute; reflexivity.
Qed.
Print Assumptions C108_unrelated_private_refuted.

(** A list of algorithms is accepted for the algorithm. *)
Theorem C108_algorithms_refuted : forall X, exists k,
  from_dict X (VDict [(VInt 1, VInt 4); (VInt 3, VList [VInt 1; VInt 3]); (VInt (-1), VBytes (repeat x07 16))]) = Ok k /\
  param k KpAlg = Some (VList [VClass (Cls FAlg 1); VClass (Cls FAlg 3)]) /\ ~ portable X k.
Proof.
  intros X. eexists. split; [vm_compute; reflexivity|]. split; [reflexivity|]. intros (_ & _ & _ & HF & _). cbn [k_store k_cls] in HF.
  inversion HF as [|? ? _ HF']; subst. inversion HF' as [|? ? H _]; subst. cbn [fst snd] in H. inversion H as [|v HK| | | |p cv n HI|p b HI| |]; subst.
  destruct HK as (w & n & E & _). discriminate.
Qed.
Print Assumptions C108_algorithms_refuted.

(** A received multi-prime key is sent on without its additional primes. *)
Theorem C108_multi_prime_refuted : forall X, exists b k b' k',
  key_decode X (VBytes b) = Ok k /\ k_extra k <> [] /\ key_encode k = Ok b' /\ key_decode X (VBytes b') = Ok k' /\ k_extra k' = [].
Proof.
  intros X. pose (one := VBytes [x05]).
  pose (m := VDict ([(VInt 1, VInt 3)] ++ map (fun i => (VInt i, one)) [-1; -2; -3; -4; -5; -6; -7; -8]%Z ++ [(VInt (-9), VList [one])] ++ map (fun i => (VInt i, one)) [-10; -11; -12]%Z)).
  exists (match dumps cls_fullname HNone m with Ok b => b | Err _ => [] end). eexists. eexists. eexists.
  split; [vm_compute; reflexivity|]. split; [discriminate|]. split; [vm_compute; reflexivity|]. split; [vm_compute; reflexivity|reflexivity].
Qed.
Print Assumptions C108_multi_prime_refuted.

(** ** The hypotheses are met *)

(** A received EC2 public key with an algorithm, operations, a kid, an unregistered number and an
    unregistered text. *)
Definition ex_received : dict :=
  [(VInt 1, VInt 2); (VInt 2, VBytes [x0a]); (VInt 3, VInt (-7)); (VInt 4, VList [VInt 2; VStr (bs "SIGN")]); (VInt (-1), VInt 1);
   (VInt (-2), VBytes [x01; x02]); (VInt (-3), VBytes [x03]); (VInt (-70001), VList [VNone]); (VStr (bs "note"), VBool true)].

Example C108_example : exists b k, loads (VBytes b) = Ok (VDict ex_received) /\ key_decode toy (VBytes b) = Ok k /\ key_map (k_cls k) ex_received /\
  k_cls k <> KRSA /\ has k KpKeyOps /\ dget (k_store k) (VStr (bs "note")) = Some (VBool true).
Proof.
  exists (match dumps cls_fullname HNone (VDict ex_received) with Ok b => b | Err _ => [] end). eexists.
  split; [vm_compute; reflexivity|]. split; [vm_compute; reflexivity|]. cbn [k_cls].
  split; [|split; [discriminate|split; [vm_compute; discriminate|vm_compute; reflexivity]]]. split; [vm_compute; reflexivity|].
  assert (HU : unknown_attr (params_of KEC2) (VStr (bs "note"))).
  { intros c n HI. cbn in HI. repeat (destruct HI as [HI|HI]; [injection HI as <- <-; vm_compute; discriminate|]). destruct HI. }
  repeat (apply Forall_cons; [split; [solve [left; eexists; reflexivity | right; right; eexists; split; [reflexivity|left; exact HU]]|]|]); [..|apply Forall_nil];
    unfold key_value; cbn [fst snd]; (split; [intros HS l Q; solve [discriminate Q | vm_compute in HS; discriminate HS]|]);
    (split; [|intros _; vm_compute; reflexivity]); intros HS l l' Q; try discriminate Q; injection Q as <-; intros HI; cbn in HI;
    repeat (destruct HI as [HI|HI]; [discriminate HI|]); destruct HI.
Qed.
