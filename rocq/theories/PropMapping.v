(** C91: keys are mappings.

    Vocabulary: SpecMapping.v. [reachable X k] says that [k] is a key object after any
    history of operations. *)
From Coq Require Import NArith ZArith Bool String.
From Coq Require Import Init.Byte List.
From Verif Require Import Bytes Value Registry Crypto Keys SpecRegistry RegistryProofs SpecKeys SpecMapping KeyProofs MapProofs PropKeys Toy.
Import ListNotations.

(** Iteration yields each parameter once; [len], [in], [items()] and [values()] agree with it
    and with reading. *)
Theorem C91_iteration_partial : forall X k, reachable X k ->
  distinct (key_iter k) /\ key_len k = length (key_iter k) /\
  (forall a, item_in k a = Ok true <-> exists t, In t (key_iter k) /\ same_param k a t) /\
  (exists l, key_items k = Ok l /\ map fst l = key_iter k /\ key_values k = Ok (map snd l) /\
     forall a v, In (a, v) l -> item_get k a = Ok v).
Proof. exact iteration. Qed.
Print Assumptions C91_iteration_partial.

(** [get] returns what is there, or the default; when membership cannot be asked, it raises
    the same exception. *)
Theorem C91_get_partial : forall k a default,
  (item_in k a = Ok true -> exists v, item_get k a = Ok v /\ key_get k a default = Ok v) /\
  (item_in k a = Ok false -> item_get k a = Err KeyError /\ key_get k a default = Ok default) /\
  (forall e, item_in k a = Err e -> item_get k a = Err e /\ key_get k a default = Err e).
Proof. exact get_default. Qed.
Print Assumptions C91_get_partial.

(** [del] and [pop] remove one parameter (x and y of an EC2 key together) and nothing else;
    a deletion that fails changes nothing, unless it was of a coordinate of an EC2 key. *)
Theorem C91_delete_partial : forall X k a k' x, reachable X k -> item_del k a = (k', x) ->
  (x = Ok tt -> (exists v, item_get k a = Ok v) /\ item_in k' a = Ok false) /\
  (forall b, other_param k a b -> ~ (coordinate k a /\ coordinate k b) -> item_get k' b = item_get k b) /\
  (forall e, x = Err e -> ~ coordinate k a -> k' = k).
Proof. exact delete. Qed.
Print Assumptions C91_delete_partial.

Theorem C91_pop_partial : forall X k a k' v, reachable X k -> item_pop k a = (k', Ok v) ->
  item_get k a = Ok v /\ item_del k a = (k', Ok tt) /\ item_in k' a = Ok false /\
  (forall b, other_param k a b -> ~ (coordinate k a /\ coordinate k b) -> item_get k' b = item_get k b).
Proof. exact pop. Qed.
Print Assumptions C91_pop_partial.

(** RSA keys: [popitem] removes the first parameter, [clear] all of them. *)
Theorem C91_rsa_emptied_partial : forall X k, reachable X k -> k_cls k = KRSA ->
  (forall a l, key_iter k = a :: l -> exists k' v, item_get k a = Ok v /\
     item_popitem k = (k', Ok (VTuple [a; v])) /\ key_iter k' = l /\
     (forall b, In b l -> item_get k' b = item_get k b)) /\
  (exists k', item_clear (S (key_len k)) k = (k', Ok tt) /\ key_len k' = 0).
Proof. exact rsa_emptied. Qed.
Print Assumptions C91_rsa_emptied_partial.

(** [setdefault] returns what is there; otherwise it stores and returns its argument. *)
Theorem C91_setdefault_partial : forall k a v,
  (item_in k a = Ok true -> item_setdefault k a v = (k, item_get k a)) /\
  (item_in k a = Ok false -> exists k', item_set k a v = (k', Ok tt) /\ item_setdefault k a v = (k', Ok v)).
Proof. exact setdefault. Qed.
Print Assumptions C91_setdefault_partial.

(** After [update] the key has the last value given for each parameter, and all others are
    unchanged. *)
Theorem C91_update_partial : forall k d k', item_update k d = (k', Ok tt) ->
  (forall d1 a v d2, d = d1 ++ (a, v) :: d2 -> Forall (fun e => other_param k (fst e) a) d2 ->
     item_get k' a = Ok v) /\
  (forall b, Forall (fun e => other_param k (fst e) b) d -> item_get k' b = item_get k b).
Proof.
  intros k d k' H. split.
  - intros d1 a v d2 -> HF. eapply update_last; eassumption.
  - intros b HF. eapply update_other; eassumption.
Qed.
Print Assumptions C91_update_partial.

(** [==] compares two keys parameter by parameter, whatever the order. *)
Theorem C91_equality_partial : forall X k k', reachable X k -> reachable X k' ->
  exists b, key_eq k k' = Ok b /\
    (b = true <-> forall t, hashable t = true -> agree (dget (k_store k) t) (dget (k_store k') t)).
Proof. exact equality. Qed.
Print Assumptions C91_equality_partial.

(** Examples: an EC2 key with a private part, a kid and a private parameter 1000. *)
Definition ex_history : list key_op := [KSetItem (VInt 1000) (VInt 1); KSetProp PAlg (VStr (bs "es256"))].
Definition ex_map : key := key_run (got ex_ec2) ex_history.

Lemma ex_map_reachable : reachable toy ex_map.
Proof. exists (got ex_ec2), ex_history. split; [exact ex_ec2_constructed|reflexivity]. Qed.

Ltac stands := apply stands_class; vm_compute; reflexivity.

Example C91_iteration_example : reachable toy ex_map /\ key_len ex_map = 8 /\
  key_iter ex_map = [VClass KpKty; VClass KpKid; VClass EC2KpCurve; VClass EC2KpX; VClass EC2KpY; VClass EC2KpD; VInt 1000; VClass KpAlg] /\
  item_in ex_map (VStr (bs "kid")) = Ok true /\ same_param ex_map (VStr (bs "kid")) (VClass KpKid) /\
  item_in ex_map (VInt 5) = Ok false.
Proof.
  split; [exact ex_map_reachable|]. split; [vm_compute; reflexivity|]. split; [vm_compute; reflexivity|].
  split; [vm_compute; reflexivity|]. split; [|vm_compute; reflexivity].
  exists (VClass KpKid), (VClass KpKid). split; [stands|]. split; [stands|vm_compute; reflexivity].
Qed.

Example C91_get_example :
  key_get ex_map (VInt 2) VNone = Ok (VBytes (bs "me")) /\ key_get ex_map (VInt 5) (VInt 7) = Ok (VInt 7).
Proof. split; vm_compute; reflexivity. Qed.

Example C91_delete_example : reachable toy ex_map /\
  (exists k', item_pop ex_map (VStr (bs "kid")) = (k', Ok (VBytes (bs "me"))) /\
     other_param ex_map (VStr (bs "kid")) (VInt 3) /\ ~ coordinate ex_map (VStr (bs "kid")) /\
     item_get k' (VInt 3) = Ok (VClass (Cls FAlg (-7)))) /\
  item_del ex_map (VClass KpKty) = (ex_map, Err CoseInvalidKey).
Proof.
  split; [exact ex_map_reachable|]. split; [|vm_compute; reflexivity].
  eexists. split; [vm_compute; reflexivity|]. split.
  - exists (VClass KpKid), (VClass KpAlg). split; [stands|]. split; [stands|vm_compute; reflexivity].
  - split; [|vm_compute; reflexivity]. intros [_ [H|H]]; apply denotes_iff in H; vm_compute in H; discriminate.
Qed.

Definition ex_rsa : result key :=
  let b := VBytes [x05] in let o := VBytes [] in
  rsa_init (RsaArgs b b o o o o o o VNone o o o) VNone true.
Lemma ex_rsa_reachable : reachable toy (got ex_rsa).
Proof.
  assert (H : ex_rsa = Ok (got ex_rsa)) by (vm_compute; reflexivity).
  exists (got ex_rsa), []. split; [|reflexivity]. eapply ConRSA. exact H.
Qed.

Example C91_rsa_emptied_example : reachable toy (got ex_rsa) /\ k_cls (got ex_rsa) = KRSA /\
  exists a l, key_iter (got ex_rsa) = a :: l /\ l <> [].
Proof.
  split; [exact ex_rsa_reachable|]. split; [vm_compute; reflexivity|].
  eexists. eexists. split; [vm_compute; reflexivity|discriminate].
Qed.

Example C91_setdefault_example :
  item_in ex_map (VInt 2) = Ok true /\ item_in ex_map (VInt 5) = Ok false /\
  snd (item_setdefault ex_map (VInt 2) (VInt 9)) = Ok (VBytes (bs "me")) /\
  snd (item_setdefault ex_map (VInt 5) (VInt 9)) = Ok (VInt 9).
Proof. repeat split; vm_compute; reflexivity. Qed.

Example C91_update_example : exists k',
  item_update ex_map [(VInt 2, VInt 7); (VStr (bs "KID"), VInt 8)] = (k', Ok tt) /\
  item_get k' (VInt 2) = Ok (VInt 8) /\ other_param ex_map (VInt 2) (VInt 3).
Proof.
  eexists. split; [vm_compute; reflexivity|]. split; [vm_compute; reflexivity|].
  exists (VClass KpKid), (VClass KpAlg). split; [stands|]. split; [stands|vm_compute; reflexivity].
Qed.

(** Missing from C91: [popitem] and [clear] never work on a key that is not RSA, ... *)
Theorem C91_clear_refuted : forall X k, reachable X k -> k_cls k <> KRSA ->
  item_popitem k = (k, Err CoseInvalidKey) /\ item_clear (S (key_len k)) k = (k, Err CoseInvalidKey).
Proof. exact clear_never. Qed.
Print Assumptions C91_clear_refuted.

Example C91_clear_example : reachable toy ex_map /\ k_cls ex_map <> KRSA.
Proof. split; [exact ex_map_reachable|]. vm_compute. discriminate. Qed.

(** ... deleting the x of an EC2 key that has d but no y removes x and raises, ... *)
Theorem C91_failed_deletion_refuted : exists k k', reachable toy k /\
  item_in k (VStr (bs "X")) = Ok true /\ item_del k (VStr (bs "X")) = (k', Err KeyError) /\
  item_in k' (VStr (bs "X")) = Ok false.
Proof.
  assert (H : exists k0, ec2_init toy (VClass (Cls FCrv 1)) (VBytes (repeat x01 32)) (VBytes (repeat x02 32)) (VBytes []) VNone true = Ok k0 /\
    let k := key_run k0 [KDelItem (VStr (bs "Y")); KSetProp PD (VBytes (repeat x03 32))] in
    item_in k (VStr (bs "X")) = Ok true /\ snd (item_del k (VStr (bs "X"))) = Err KeyError /\
    item_in (fst (item_del k (VStr (bs "X")))) (VStr (bs "X")) = Ok false).
  { eexists. split; [vm_compute; reflexivity|]. cbv zeta. repeat split; vm_compute; reflexivity. }
  destruct H as (k0 & H0 & H1 & H2 & H3). cbv zeta in *.
  exists (key_run k0 [KDelItem (VStr (bs "Y")); KSetProp PD (VBytes (repeat x03 32))]). eexists.
  split; [exists k0; eexists; split; [eapply ConEC2; exact H0|reflexivity]|].
  split; [assumption|]. split; [|exact H3]. rewrite <- H2. apply surjective_pairing.
Qed.
Print Assumptions C91_failed_deletion_refuted.

(** ... and [==] ignores the additional primes of an RSA key, and the order that decides the
    encoding: equal keys may encode differently. *)
Theorem C91_rsa_equality_refuted : exists k k' p,
  reachable toy k /\ reachable toy k' /\ key_eq k k' = Ok true /\
  dget (k_extra k) p = Some (VBytes [x05]) /\ dget (k_extra k') p = Some (VBytes [x06]).
Proof.
  pose (mk b := rsa_init (RsaArgs (VBytes [x05]) (VBytes [x05]) (VBytes [x05]) (VBytes [x05]) (VBytes [x05]) (VBytes [x05])
     (VBytes [x05]) (VBytes [x05]) (VList [VInt 1]) (VBytes [b]) (VBytes [b]) (VBytes [b])) VNone true).
  assert (H : forall b, exists k, mk b = Ok k) by (intros b; eexists; vm_compute; reflexivity).
  exists (got (mk x05)), (got (mk x06)), (VStr (bs "r_i")).
  split; [|split; [|split; [vm_compute; reflexivity|split; vm_compute; reflexivity]]].
  - destruct (H x05) as [k E]. rewrite E. exists k, []. split; [|reflexivity]. unfold mk in E. eapply ConRSA. exact E.
  - destruct (H x06) as [k E]. rewrite E. exists k, []. split; [|reflexivity]. unfold mk in E. eapply ConRSA. exact E.
Qed.
Print Assumptions C91_rsa_equality_refuted.

Definition ex_kid_alg : result key :=
  sym_init (VBytes (repeat x01 16)) (VDict [(VClass KpKid, VBytes [x05]); (VClass KpAlg, VInt 1)]) true.
Definition ex_alg_kid : result key :=
  sym_init (VBytes (repeat x01 16)) (VDict [(VClass KpAlg, VInt 1); (VClass KpKid, VBytes [x05])]) true.

Theorem C91_equal_encodings_refuted : exists k k' b b',
  reachable toy k /\ reachable toy k' /\ key_eq k k' = Ok true /\
  key_encode k = Ok b /\ key_encode k' = Ok b' /\ b <> b'.
Proof.
  assert (HE : exists b b', key_encode (got ex_kid_alg) = Ok b /\ key_encode (got ex_alg_kid) = Ok b' /\ b <> b').
  { eexists. eexists. split; [vm_compute; reflexivity|]. split; [vm_compute; reflexivity|]. discriminate. }
  destruct HE as (b & b' & H1 & H2 & H3). exists (got ex_kid_alg), (got ex_alg_kid), b, b'.
  split; [|split; [|split; [vm_compute; reflexivity|auto]]].
  - assert (E : ex_kid_alg = Ok (got ex_kid_alg)) by (vm_compute; reflexivity).
    exists (got ex_kid_alg), []. split; [|reflexivity]. unfold ex_kid_alg in E at 1. eapply ConSym. exact E.
  - assert (E : ex_alg_kid = Ok (got ex_alg_kid)) by (vm_compute; reflexivity).
    exists (got ex_alg_kid), []. split; [|reflexivity]. unfold ex_alg_kid in E at 1. eapply ConSym. exact E.
Qed.
Print Assumptions C91_equal_encodings_refuted.
