(** C31, C33-C36, C38, C42, C43, C61, C63: key objects.

    Vocabulary: SpecKeys.v. [key_run k ops] is the key after the operations [ops]
    (property and item assignments, deletions and the mapping methods), each of which may
    raise; [param k p] is what the key stores for parameter [p]. *)
From Coq Require Import NArith ZArith Bool String.
From Coq Require Import Init.Byte List.
From Verif Require Import Bytes Value Registry Crypto Keys SpecKeys KeyProofs KeyProofs2 KeyProofs3 KeyProofs4 SpecGen InitProofs Toy.
Import ListNotations.

(** Keys used in the examples. *)
Definition ex_sym : result key := sym_init (VBytes (repeat x01 16)) VNone true.
Definition ex_okp : result key :=
  okp_init (VClass (Cls FCrv 6)) (VBytes (repeat x01 32)) (VBytes (repeat x02 32)) VNone true.
Definition ex_ec2 : result key :=
  ec2_init toy (VClass (Cls FCrv 1)) (VBytes []) (VBytes []) (VBytes (repeat x02 32))
    (VDict [(VStr (bs "KID"), VBytes (bs "me"))]) true.
Definition got (r : result key) : key := match r with Ok k => k | Err _ => Key KSym [] [] end.

Lemma ex_ec2_constructed : constructed toy (got ex_ec2).
Proof.
  assert (H : ex_ec2 = Ok (got ex_ec2)) by (vm_compute; reflexivity).
  generalize dependent (got ex_ec2). intros k H. unfold ex_ec2 in H. eapply ConEC2. exact H.
Qed.

(** C31. A key whose key_ops are a list is accepted exactly when type, algorithm and
    operations match; the errors tell which check failed. *)
Theorem C31_authorisation : forall X k0 history c alg ops,
  constructed X k0 -> Forall (items_good (k_cls k0) KpKeyOps is_list) history ->
  let k := key_run k0 history in
  (key_verify k c (VClass alg) (map VClass ops) = Ok tt <-> type_ok k c /\ alg_ok k alg /\ ops_ok k ops) /\
  (~ type_ok k c -> key_verify k c (VClass alg) (map VClass ops) = Err CoseException) /\
  (type_ok k c -> ~ alg_ok k alg -> (exists a, param k KpAlg = Some (VClass a)) ->
     key_verify k c (VClass alg) (map VClass ops) = Err CoseIllegalAlgorithm) /\
  (type_ok k c -> alg_ok k alg -> ~ ops_ok k ops ->
     key_verify k c (VClass alg) (map VClass ops) = Err CoseIllegalKeyOps).
Proof.
  intros X k0 history c alg ops HC HF k. apply key_verify_cases. eapply reachable_ops; eassumption.
Qed.
Print Assumptions C31_authorisation.

Example C31_example :
  let es256 := Cls FAlg (-7) in let sign := Cls FOps 1 in let verify := Cls FOps 2 in
  let k := key_run (got ex_ec2) [KSetProp PKeyOps (VList [VClass verify]); KSetProp PAlg (VStr (bs "ES256"))] in
  is_ok ex_ec2 = true /\
  key_verify k KEC2 (VClass es256) (map VClass [verify]) = Ok tt /\
  key_verify k KEC2 (VClass es256) (map VClass [sign]) = Err CoseIllegalKeyOps /\
  key_verify k KEC2 (VClass (Cls FAlg (-35))) (map VClass [verify]) = Err CoseIllegalAlgorithm /\
  key_verify k KOKP (VClass es256) (map VClass [verify]) = Err CoseException.
Proof. repeat split; vm_compute; reflexivity. Qed.

(** C33. Holds for every history whose item assignments respect the sizes and whose
    property assignments leave the key type alone. *)
Theorem C33_symmetric_sizes_partial : forall kv opt allow k ops,
  sym_init kv opt allow = Ok k ->
  Forall (kty_safe KSym) ops -> Forall (items_good KSym SymKpK legal_k) ops ->
  param (key_run k ops) KpKty = Some KtySymmetric /\ holds (key_run k ops) SymKpK legal_k.
Proof.
  intros kv opt allow k ops H H1 H2. destruct (sym_run _ _ _ _ _ H H1 H2) as [HF HH].
  split; [apply HF|exact HH].
Qed.
Print Assumptions C33_symmetric_sizes_partial.

(** Missing from C33: item assignment is unchecked. *)
Theorem C33_item_assignment_refuted : exists kv k op,
  sym_init kv VNone true = Ok k /\ ~ holds (key_step k op) SymKpK legal_k.
Proof.
  exists (VBytes (repeat x01 16)). eexists. exists (KSetItem (VStr (bs "K")) (VBytes [x01])).
  split; [vm_compute; reflexivity|]. intros (v & HV & b & -> & HL). vm_compute in HV. injection HV as <-.
  vm_compute in HL. intuition discriminate.
Qed.
Print Assumptions C33_item_assignment_refuted.

Example C33_example :
  let ops := [KSetProp PK (VBytes (repeat x05 24)); KSetProp PK (VBytes [x01]); KDelItem (VStr (bs "k"));
              KPopitem; KClear; KSetItem (VInt (-1)) (VBytes (repeat x06 32))] in
  is_ok ex_sym = true /\ Forall (kty_safe KSym) ops /\ Forall (items_good KSym SymKpK legal_k) ops /\
  param (key_run (got ex_sym) ops) SymKpK = Some (VBytes (repeat x06 32)).
Proof.
  cbv zeta. split; [vm_compute; reflexivity|]. split; [|split; [|vm_compute; reflexivity]].
  - repeat apply Forall_cons; try apply Forall_nil; (split; [intros [v H]; discriminate|]);
      intros a v H HD; cbn [op_items In] in H; try tauto. destruct H as [H|[]]. injection H as <- <-.
    apply denotes_iff in HD. vm_compute in HD. discriminate.
  - repeat apply Forall_cons; try apply Forall_nil;
      intros a v H HD; cbn [op_items In] in H; try tauto. destruct H as [H|[]]. injection H as <- <-.
    exists (repeat x06 32). split; [reflexivity|]. vm_compute. tauto.
Qed.

(** C34. Key type, curve, and x or d survive every history of deletions, property
    assignments other than kty, and item assignments of proper key types and curves. *)
Theorem C34_ec2_histories_partial : forall X crv x y d opt allow k ops,
  ec2_init X crv x y d opt allow = Ok k ->
  Forall (kty_safe KEC2) ops -> Forall (items_good KEC2 EC2KpCurve (curve_of KEC2)) ops ->
  let k' := key_run k ops in
  param k' KpKty = Some KtyEC2 /\ holds k' EC2KpCurve (curve_of KEC2) /\
  (has k' EC2KpX \/ has k' EC2KpD).
Proof.
  intros X crv x y d opt allow k ops H H1 H2. destruct (ec2_run _ _ _ _ _ _ _ _ _ H H1 H2) as (HF & HC & HX).
  split; [apply HF|]. split; assumption.
Qed.
Print Assumptions C34_ec2_histories_partial.

Example C34_example :
  let ops := [KDelItem (VStr (bs "D")); KDelItem (VStr (bs "X")); KDelItem (VInt 1); KPop (VInt (-4)); KClear;
              KSetProp PCrv (VStr (bs "P_384"))] in
  let k := key_run (got ex_ec2) ops in
  Forall (kty_safe KEC2) ops /\ Forall (items_good KEC2 EC2KpCurve (curve_of KEC2)) ops /\
  ~ has k EC2KpD /\ has k EC2KpX /\ param k EC2KpCurve = Some (VClass (Cls FCrv 2)).
Proof.
  cbv zeta. split; [|split; [|split; [|split]]].
  - repeat apply Forall_cons; try apply Forall_nil; (split; [intros [v H]; discriminate|]);
      intros a v H HD; destruct H.
  - repeat apply Forall_cons; try apply Forall_nil; intros a v H HD; destruct H.
  - intros H. apply H. vm_compute. reflexivity.
  - vm_compute. discriminate.
  - vm_compute. reflexivity.
Qed.

(** Missing from C34 and C35: [key.kty = 2], the id of EC2 itself, replaces the key type
    by the parameter KID. *)
Theorem C34_kty_assignment_refuted : forall X crv x y d opt allow k,
  ec2_init X crv x y d opt allow = Ok k ->
  param (key_step k (KSetProp PKty (VInt 2))) KpKty = Some (VClass KpKid).
Proof.
  intros X crv x y d opt allow k _. cbn [key_step].
  change (prop_set k PKty (VInt 2)) with (store_set k KpKty (VClass KpKid), @Ok unit tt).
  cbn [fst]. eapply updates_same. apply updates_store_set.
Qed.
Print Assumptions C34_kty_assignment_refuted.

(** C35. Key type and curve survive; x or d also does as long as d is not deleted. *)
Theorem C35_okp_histories_partial : forall crv x d opt allow k ops,
  okp_init crv x d opt allow = Ok k ->
  Forall (kty_safe KOKP) ops -> Forall (items_good KOKP OKPKpCurve (curve_of KOKP)) ops ->
  let k' := key_run k ops in
  param k' KpKty = Some KtyOKP /\ holds k' OKPKpCurve (curve_of KOKP) /\
  (Forall (fun o => ~ deletes KOKP OKPKpD o) ops -> has k' OKPKpX \/ has k' OKPKpD).
Proof.
  intros crv x d opt allow k ops H H1 H2. destruct (okp_run _ _ _ _ _ _ _ H H1 H2) as (HF & HC).
  split; [apply HF|]. split; [assumption|]. intros H3. apply (okp_run_full _ _ _ _ _ _ _ H H1 H2 H3).
Qed.
Print Assumptions C35_okp_histories_partial.

Example C35_example :
  let ops := [KDelItem (VStr (bs "X")); KDelItem (VInt 1); KClear] in
  is_ok ex_okp = true /\ Forall (kty_safe KOKP) ops /\ Forall (fun o => ~ deletes KOKP OKPKpD o) ops /\
  ~ has (key_run (got ex_okp) ops) OKPKpX /\ has (key_run (got ex_okp) ops) OKPKpD.
Proof.
  cbv zeta. split; [vm_compute; reflexivity|]. split; [|split; [|split]].
  - repeat apply Forall_cons; try apply Forall_nil; (split; [intros [v H]; discriminate|]);
      intros a v H HD; destruct H.
  - repeat apply Forall_cons; try apply Forall_nil; intros H; cbn [deletes] in H; try apply denotes_iff in H; vm_compute in H; try discriminate; assumption.
  - intros H. apply H. vm_compute. reflexivity.
  - vm_compute. discriminate.
Qed.

(** Missing from C35: deleting x and then d leaves a key with neither. *)
Theorem C35_deletions_refuted : exists crv x d k ops,
  okp_init crv x d VNone true = Ok k /\ Forall (fun o => exists a, o = KDelItem a) ops /\
  ~ has (key_run k ops) OKPKpX /\ ~ has (key_run k ops) OKPKpD.
Proof.
  exists (VClass (Cls FCrv 6)), (VBytes (repeat x01 32)), (VBytes (repeat x02 32)). eexists.
  exists [KDelItem (VStr (bs "X")); KDelItem (VStr (bs "D"))].
  split; [vm_compute; reflexivity|]. split; [repeat constructor; eauto|].
  split; intros H; apply H; vm_compute; reflexivity.
Qed.
Print Assumptions C35_deletions_refuted.

(** C36. A non-empty list of supported operations (each given as class, id or full name)
    is accepted and stored, each operation as its class, and nothing else changes. *)
Theorem C36_key_ops_accepted_partial : forall k l,
  Forall (supported (k_cls k)) l -> l <> [] ->
  exists zs k', Forall2 names_op zs l /\ prop_set k PKeyOps (VList l) = (k', Ok tt) /\
    param k' KpKeyOps = Some (VList (map (fun z => VClass (Cls FOps z)) zs)) /\
    forall p, p <> KpKeyOps -> param k' p = param k p.
Proof.
  intros k l H HN. destruct (key_ops_accepted k l H HN) as (zs & HZ & HE).
  exists zs. eexists. split; [assumption|]. split; [exact HE|]. split.
  - eapply updates_same, updates_store_set.
  - intros p HP. eapply updates_other; [apply updates_store_set|assumption].
Qed.
Print Assumptions C36_key_ops_accepted_partial.

(** A list with an unsupported operation always raises; the key is then unchanged, or
    holds the rejected list although the assignment raised. *)
Theorem C36_key_ops_rejected_partial : forall k l,
  Forall proper_op l -> ~ Forall (supported (k_cls k)) l ->
  exists k' e, prop_set k PKeyOps (VList l) = (k', Err e) /\
    (k' = k \/ exists m, mapM (from_id FOps false) l = Ok m /\ k' = store_set k KpKeyOps (VList m)).
Proof. exact key_ops_rejected. Qed.
Print Assumptions C36_key_ops_rejected_partial.

(** It is unchanged when the first operation is the unsupported one. *)
Theorem C36_first_unsupported_partial : forall k o l, proper_op o -> ~ supported (k_cls k) o ->
  prop_set k PKeyOps (VList (o :: l)) = (k, Err CoseIllegalKeyOps).
Proof. exact key_ops_first_bad. Qed.
Print Assumptions C36_first_unsupported_partial.

Example C36_example : let k := got ex_ec2 in
  (supported KEC2 (VInt 1) /\ supported KEC2 (VStr (bs "VERIFY"))) /\
  exists k', prop_set k PKeyOps (VList [VInt 1; VStr (bs "VERIFY")]) = (k', Ok tt) /\
    param k' KpKeyOps = Some (VList [VClass (Cls FOps 1); VClass (Cls FOps 2)]).
Proof.
  cbv zeta. split.
  - split; [exists 1%Z; split; [vm_compute; tauto|right; left; reflexivity]|].
    exists 2%Z; split; [vm_compute; tauto|right; right; vm_compute; reflexivity].
  - eexists. split; [vm_compute; reflexivity|]. vm_compute. reflexivity.
Qed.

(** Missing from C36: a rejected list is nevertheless stored when it starts with a
    supported operation, and an empty list does not clear the operations. *)
Theorem C36_not_atomic_refuted : exists k v k',
  constructed toy k /\ prop_set k PKeyOps v = (k', Err CoseIllegalKeyOps) /\
  param k KpKeyOps = None /\ param k' KpKeyOps = Some (VList [VClass (Cls FOps 2); VClass (Cls FOps 9)]).
Proof.
  exists (got ex_ec2). exists (VList [VInt 2; VInt 9]). eexists. split; [exact ex_ec2_constructed|].
  split; [vm_compute; reflexivity|]. split; vm_compute; reflexivity.
Qed.
Print Assumptions C36_not_atomic_refuted.

Theorem C36_empty_list_refuted : forall k, prop_set k PKeyOps (VList []) = (k, Ok tt).
Proof. reflexivity. Qed.
Print Assumptions C36_empty_list_refuted.

(** C38. For arguments of the right Python types, exactly the three forms of RFC 8230
    section 4 are accepted, everything else raises CoseInvalidKey. *)
Theorem C38_rsa_forms : forall a allow, rsa_typed a ->
  ((exists k, rsa_init a VNone allow = Ok k) <->
   rsa_public_form a \/ rsa_two_prime_form a \/ rsa_multi_prime_form a) /\
  (~ (rsa_public_form a \/ rsa_two_prime_form a \/ rsa_multi_prime_form a) ->
   rsa_init a VNone allow = Err CoseInvalidKey).
Proof. exact rsa_init_iff. Qed.
Print Assumptions C38_rsa_forms.

Example C38_example :
  let b := VBytes [x05] in let o := VBytes [] in
  rsa_typed (RsaArgs b b o o o o o o VNone o o o) /\ rsa_typed (RsaArgs b b b o o o o o VNone o o o) /\
  is_ok (rsa_init (RsaArgs b b o o o o o o VNone o o o) VNone true) = true /\
  rsa_init (RsaArgs b b b o o o o o VNone o o o) VNone true = Err CoseInvalidKey.
Proof.
  cbv zeta. split; [|split; [|split; vm_compute; reflexivity]];
    (split; [repeat (apply Forall_cons; [eexists; reflexivity|]); apply Forall_nil|left; reflexivity]).
Qed.

(** C42. RSA integers, none of which is zero, are stored in the shortest form. *)
Theorem C42_rsa_public_import : forall X pub, rsa_n pub <> 0%N -> rsa_e pub <> 0%N ->
  exists k, from_ext X (ExtRSA pub None) VNone = Ok k /\
  stored_min k RSAKpN (rsa_n pub) /\ stored_min k RSAKpE (rsa_e pub) /\ ~ has k RSAKpD.
Proof. intros X. exact rsa_pub_import. Qed.
Print Assumptions C42_rsa_public_import.

Theorem C42_rsa_private_import : forall X q, rsa_n (rsa_public q) <> 0%N -> rsa_e (rsa_public q) <> 0%N ->
  rsa_d q <> 0%N -> rsa_p q <> 0%N -> rsa_q q <> 0%N -> rsa_dmp1 q <> 0%N -> rsa_dmq1 q <> 0%N -> rsa_iqmp q <> 0%N ->
  exists k, from_ext X (ExtRSA (rsa_public q) (Some q)) VNone = Ok k /\
  stored_min k RSAKpN (rsa_n (rsa_public q)) /\ stored_min k RSAKpE (rsa_e (rsa_public q)) /\
  stored_min k RSAKpD (rsa_d q) /\ stored_min k RSAKpP (rsa_p q) /\ stored_min k RSAKpQ (rsa_q q) /\
  stored_min k RSAKpDP (rsa_dmp1 q) /\ stored_min k RSAKpDQ (rsa_dmq1 q) /\ stored_min k RSAKpQInv (rsa_iqmp q).
Proof. intros X. exact rsa_priv_import. Qed.
Print Assumptions C42_rsa_private_import.

(** Elliptic curve integers are stored in exactly the size of the curve. *)
Theorem C42_ec2_import : forall X c size x y priv k, In (c, size) ec2_curves ->
  from_ext X (ExtEC (Some c) x y priv) VNone = Ok k ->
  param k EC2KpCurve = Some (VClass (Cls FCrv c)) /\
  stored_sized k EC2KpX size x /\ stored_sized k EC2KpY size y /\
  match priv with Some d => stored_sized k EC2KpD size d | None => ~ has k EC2KpD end.
Proof.
  intros X c size x y priv k HC. destruct (curve_size_spec _ _ HC) as [<- _]. apply ec2_import.
  cbn [ec2_curves In] in HC. destruct HC as [E|[E|[E|[E|[]]]]]; injection E as <- _; reflexivity.
Qed.
Print Assumptions C42_ec2_import.

Example C42_example :
  (exists k, from_ext toy (ExtRSA (RsaPub 65537 1000) None) VNone = Ok k /\
     param k RSAKpE = Some (VBytes [x01; x00; x01])) /\
  (exists k, from_ext toy (ExtEC (Some 1%Z) 7 8 (Some 7%N)) VNone = Ok k /\
     param k EC2KpX = Some (VBytes (repeat x00 31 ++ [x07]))).
Proof. split; eexists; (split; [vm_compute; reflexivity|]); vm_compute; reflexivity. Qed.

(** C43. With a private key, the stored coordinates are those of its public point and
    given coordinates must be equal to them. *)
Theorem C43_private_consistent_partial : forall X crv x y d opt allow k,
  ec2_init X crv x y (VBytes d) opt allow = Ok k -> d <> [] ->
  exists cv size px py bx by_, param k EC2KpCurve = Some (VClass cv) /\ In (c_id cv, size) ec2_curves /\
    x_ec_pub X (c_id cv) (of_be d) = Ok (px, py) /\
    length bx = size /\ of_be bx = px /\ length by_ = size /\ of_be by_ = py /\
    param k EC2KpX = Some (VBytes bx) /\ param k EC2KpY = Some (VBytes by_) /\
    param k EC2KpD = Some (VBytes d) /\
    (truthy x = true -> x = VBytes bx) /\ (truthy y = true -> y = VBytes by_).
Proof.
  intros X crv x y d opt allow k H HD. pose proof H as H'.
  apply ec2_private_consistent in H' as (cv & px & py & bx & by_ & HC & HR); [|assumption].
  exists cv, (curve_size (c_id cv)), px, py, bx, by_. split; [assumption|]. split; [eapply ec2_init_curve; eassumption|assumption].
Qed.
Print Assumptions C43_private_consistent_partial.

(** With x alone, y is the one of the compressed point [03 || x]. *)
Theorem C43_decompressed_partial : forall X crv x opt allow k,
  ec2_init X crv (VBytes x) (VBytes []) (VBytes []) opt allow = Ok k ->
  exists cv size px py by_, param k EC2KpCurve = Some (VClass cv) /\ In (c_id cv, size) ec2_curves /\
    x_ec_point X (c_id cv) (x03 :: x) = Ok (px, py) /\
    length x = size /\ of_be x = px /\ length by_ = size /\ of_be by_ = py /\
    param k EC2KpX = Some (VBytes x) /\ param k EC2KpY = Some (VBytes by_).
Proof.
  intros X crv x opt allow k H. pose proof H as H'.
  apply ec2_public_decompressed in H' as (cv & px & py & by_ & HC & HR).
  exists cv, (curve_size (c_id cv)), px, py, by_. split; [assumption|]. split; [eapply ec2_init_curve; eassumption|assumption].
Qed.
Print Assumptions C43_decompressed_partial.

Example C43_example :
  is_ok ex_ec2 = true /\
  is_ok (ec2_init toy (VClass (Cls FCrv 1)) (VBytes (repeat x01 32)) (VBytes []) (VBytes []) VNone true) = true /\
  ec2_init toy (VClass (Cls FCrv 1)) (VBytes (repeat x01 32)) (VBytes []) (VBytes (repeat x02 32)) VNone true
    = Err AssertionError.
Proof. repeat split; vm_compute; reflexivity. Qed.

(** Missing from C43: with both coordinates and no private key, nothing is checked, for
    any implementation of the curves. *)
Theorem C43_public_unchecked_refuted : forall X x y, x <> [] -> y <> [] ->
  exists k, ec2_init X (VClass (Cls FCrv 1)) (VBytes x) (VBytes y) (VBytes []) VNone true = Ok k /\
    param k EC2KpX = Some (VBytes x) /\ param k EC2KpY = Some (VBytes y).
Proof. exact ec2_public_unchecked. Qed.
Print Assumptions C43_public_unchecked_refuted.

(** C61. Every property but kty and key_ops (see C36) reads back the (normalised) value
    that was assigned, and every other property is unchanged. *)
Theorem C61_properties_read_back_partial : forall k p v k',
  p <> PKty -> p <> PKeyOps -> prop_set k p v = (k', Ok tt) ->
  k_cls k' = k_cls k /\
  (exists w, normalised (k_cls k) p v w /\ prop_get k' p = Ok w) /\
  (forall q, q <> p -> prop_get k' q = prop_get k q).
Proof. exact prop_roundtrip. Qed.
Print Assumptions C61_properties_read_back_partial.

Example C61_example : let k := got ex_ec2 in
  exists k', prop_set k PAlg (VStr (bs "es256")) = (k', Ok tt) /\
    prop_get k' PAlg = Ok (VClass (Cls FAlg (-7))) /\ prop_get k' PKid = Ok (VBytes (bs "me")).
Proof. cbv zeta. eexists. split; [vm_compute; reflexivity|]. split; vm_compute; reflexivity. Qed.

(** Missing from C61: kty. Whatever single value is assigned, what is stored is one of the
    common key parameters, never a key type. *)
Theorem C61_kty_refuted : forall k v k', prop_set k PKty v = (k', Ok tt) ->
  (forall l, v <> VList l) -> exists c n, In (c, n) (registered FKP) /\ prop_get k' PKty = Ok (VClass c).
Proof. exact kty_never. Qed.
Print Assumptions C61_kty_refuted.

Example C61_kty_example : exists k', prop_set (got ex_ec2) PKty KtyEC2 = (k', Ok tt) /\
  prop_get (got ex_ec2) PKty = Ok KtyEC2 /\ prop_get k' PKty = Ok (VClass KpKid).
Proof. eexists. split; [vm_compute; reflexivity|]. split; vm_compute; reflexivity. Qed.

(** C63. After [key[a] = v] every spelling [b] of the same parameter is in the key with
    value v, and other parameters are unchanged. *)
Theorem C63_set_item_partial : forall k a v k' b, item_set k a v = (k', Ok tt) ->
  key_transform (k_cls k) true b = key_transform (k_cls k) true a ->
  k_cls k' = k_cls k /\ item_get k' b = Ok v /\ item_in k' b = Ok true.
Proof. exact item_set_get. Qed.
Print Assumptions C63_set_item_partial.

Theorem C63_set_item_other_partial : forall k a v k' b t s, item_set k a v = (k', Ok tt) ->
  key_transform (k_cls k) true a = Ok t -> key_transform (k_cls k) true b = Ok s -> keyeq s t = false ->
  item_get k' b = item_get k b.
Proof. exact item_set_other. Qed.
Print Assumptions C63_set_item_other_partial.

(** After [del key[a]], in any history, a is gone. *)
Theorem C63_del_item_partial : forall X k ops a k', constructed X k ->
  item_del (key_run k ops) a = (k', Ok tt) ->
  item_in k' a = Ok false /\ item_get k' a = Err KeyError.
Proof. exact del_gone. Qed.
Print Assumptions C63_del_item_partial.

(** The optional parameters that are present can be deleted from every key. *)
Theorem C63_optional_deletable_partial : forall k p a v, In p [KpKid; KpAlg; KpKeyOps; KpBaseIV] ->
  key_transform (k_cls k) false a = Ok (VClass p) -> param k p = Some v ->
  exists k', item_del k a = (k', Ok tt).
Proof. exact optional_deletable. Qed.
Print Assumptions C63_optional_deletable_partial.

Example C63_example : let k := got ex_ec2 in
  (exists k', item_set k (VStr (bs "kid")) (VBytes (bs "you")) = (k', Ok tt) /\
     item_get k' (VInt 2) = Ok (VBytes (bs "you"))) /\
  (exists k', item_del k (VInt 2) = (k', Ok tt) /\ item_in k' (VStr (bs "KID")) = Ok false).
Proof. cbv zeta. split; eexists; (split; [vm_compute; reflexivity|]); vm_compute; reflexivity. Qed.

(** Missing from C63: a private (unregistered) parameter can be set but not deleted. *)
Theorem C63_unknown_not_deletable_refuted : exists k a v k',
  constructed toy k /\ item_set k a v = (k', Ok tt) /\ item_in k' a = Ok true /\
  item_del k' a = (k', Err CoseException).
Proof.
  exists (got ex_ec2), (VInt 1000), (VInt 1). eexists. split; [exact ex_ec2_constructed|].
  split; [vm_compute; reflexivity|]. split; vm_compute; reflexivity.
Qed.
Print Assumptions C63_unknown_not_deletable_refuted.
