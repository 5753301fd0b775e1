(** C117: what is passed to a constructor is what the new object has. *)
From Coq Require Import NArith ZArith Bool String Lia Permutation.
From Coq Require Import Init.Byte List.
From Verif Require Import Bytes Value Cbor Registry Crypto Keys Headers Messages Recipients Toy Construct SpecConstruct ValueProofs HdrProofs ConstructProofs.
Import ListNotations.
Local Open Scope string_scope.
Local Open Scope list_scope.

(** ** Names and positions *)

(** Arguments may be given by position or by name, in any mixture: the result is the same. *)
Theorem C117_by_position : forall X k vs kw, each_once kw -> (length vs <= length (documented k))%nat ->
  (forall n, In n (firstn (length vs) (documented k)) -> ~ In n (map fst kw)) ->
  new X k (Call vs kw) = new X k (Call [] (combine (documented k) vs ++ kw)).
Proof.
  intros X k vs kw HO HL HN. apply new_enter. rewrite <- params_names in HL, HN. rewrite <- params_names.
  assert (EI : forall n, In n (map fst (combine (map fst (params k)) vs)) -> In n (firstn (length vs) (map fst (params k)))).
  { generalize (map fst (params k)) as ns. intros ns. revert vs HL HN. clear. intros vs _ _. revert vs. induction ns as [|m ns IH]; intros [|v vs] n H; cbn [combine map fst In firstn length] in *; try contradiction.
    destruct H as [->|H]; [left; reflexivity|right; exact (IH _ _ H)]. }
  assert (ND : NoDup (map fst (combine (map fst (params k)) vs))).
  { pose proof (documented_nodup k) as D. rewrite <- params_names in D. revert D. clear. generalize (map fst (params k)) as ns. intros ns. revert vs.
    induction ns as [|m ns IH]; intros [|v vs] D; cbn [combine map fst]; try constructor; inversion D; subst; [|apply IH; assumption].
    intros H. apply in_map_iff in H as ([q w] & E & H). cbn [fst] in E. subst q. apply in_combine_l in H. contradiction. }
  assert (SN : ~ In "self" (map fst (params k))).
  { rewrite params_names. destruct k; cbn; intuition discriminate. }
  destruct (in_dec string_dec "self" (map fst kw)) as [S|S].
  - rewrite !enter_rough; [reflexivity| |]; cbn [Construct.kw]; intros [_ H]; apply H; [rewrite map_app; apply in_app_iff; right|]; exact S.
  - assert (F : fine (combine (map fst (params k)) vs ++ kw)).
    { split; rewrite map_app.
      - revert ND EI. generalize (map fst (combine (map fst (params k)) vs)) as q. induction q as [|m q IH]; cbn [app]; intros ND EI; [exact HO|].
        inversion ND as [|? ? HM HQ]; subst. constructor; [|apply IH; [exact HQ|intros n H; apply EI; right; exact H]].
        rewrite in_app_iff. intros [H|H]; [contradiction|]. apply (HN m); [apply EI; left; reflexivity|exact H].
      - rewrite in_app_iff. intros [H|H]; [|contradiction]. apply SN. apply EI in H. revert H. clear. generalize (map fst (params k)) as q. generalize (length vs) as m.
        intros m q. revert m. induction q as [|x q IH]; intros [|m] H; cbn [firstn In] in *; try contradiction. destruct H as [H|H]; [left; exact H|right; exact (IH _ H)]. }
    rewrite !enter_fine; [|exact F|split; assumption]. cbn [pos Construct.kw]. apply bind_by_name.
    + rewrite params_names. apply documented_nodup.
    + rewrite map_length in HL. exact HL.
    + intros n HI. apply get_none. exact (HN n HI).
Qed.
Print Assumptions C117_by_position.

(** An argument given twice is refused: by position and by name, or twice by name ... *)
Theorem C117_twice : forall X k vs kw, (exists n, In n (firstn (length vs) (documented k)) /\ In n (map fst kw)) \/ ~ each_once kw ->
  new X k (Call vs kw) = Err TypeError.
Proof.
  intros X k vs kw H. apply new_refused. destruct (repeated (map fst kw)) eqn:R.
  - unfold enter. cbn [Construct.kw]. rewrite R. reflexivity.
  - apply repeated_spec in R. destruct H as [(n & H1 & H2)|H]; [|contradiction].
    destruct (in_dec string_dec "self" (map fst kw)) as [S|S]; [apply enter_rough; intros [_ Q]; exact (Q S)|].
    rewrite enter_fine by (split; assumption). cbn [pos Construct.kw]. rewrite <- params_names in H1. apply (bind_twice _ _ _ n).
    + rewrite params_names. apply documented_nodup.
    + exact H1.
    + intros G. apply get_none in G. contradiction.
Qed.
Print Assumptions C117_twice.

(** ... and so is an argument that the class sets itself: the external data and the key of a
    COSE_Sign message, which belong to its signers, and the payload of a signer. *)
Theorem C117_taken : forall X k vs kw n, In n (taken k) -> In n (map fst kw) -> exists e, new X k (Call vs kw) = Err e.
Proof.
  intros X k vs kw n HT HN. destruct (repeated (map fst kw)) eqn:R.
  { exists TypeError. apply C117_twice. right. intros H. apply repeated_spec in H. congruence. }
  apply repeated_spec in R. destruct (in_dec string_dec "self" (map fst kw)) as [S|S].
  { exists TypeError. apply new_refused. apply enter_rough. intros [_ Q]. exact (Q S). }
  assert (HF : fine kw) by (split; assumption).
  assert (HB : forall ps vs' l r c, bind_params ps vs' l = Ok (r, c) -> ~ In n (map fst ps) -> In n (map fst l) -> In n (map fst (Construct.kw c))).
  { clear. induction ps as [|[m d] ps IH]; intros vs' l r c H HI HL; cbn [bind_params] in H; [injection H as _ <-; exact HL|]. cbn [map fst In] in HI.
    destruct vs' as [|v vs'].
    - destruct (get_kw m l) as [w|]; apply bind_ok in H as ([r1 c1] & H & E); injection E as _ <-; apply (IH _ _ _ _ H); try tauto.
      apply in_map_iff in HL as ([q w'] & <- & HL). apply in_map_iff. exists (q, w'). split; [reflexivity|]. apply filter_In. split; [exact HL|].
      cbn [fst] in *. destruct (String.eqb_spec m q); [exfalso; tauto|reflexivity].
    - destruct (get_kw m l); [discriminate|]. apply bind_ok in H as ([r1 c1] & H & E). injection E as _ <-. apply (IH _ _ _ _ H); tauto. }
  destruct k; cbn [taken In] in HT; try (destruct HT as [<-|[]]; contradiction).
  - destruct HT as [<-|HT]; [contradiction|].
    cbn [new]. rewrite enter_fine by exact HF. cbn [pos Construct.kw]. destruct (bind_params (params NSign) vs kw) as [[r c]|e] eqn:E; cbn [bind]; [|eauto].
    assert (Q : In n (map fst (Construct.kw c))) by (apply (HB _ _ _ _ _ E); [destruct HT as [<-|[<-|[]]]; cbn; intuition discriminate|exact HN]).
    destruct r as [|p [|u [|pl [|s [|]]]]]; eauto. exists TypeError. unfold message_init. rewrite enter_rough; [reflexivity|]. cbn [Construct.kw map fst].
    intros [ND _]. inversion ND as [|? ? H1 H2]; subst. inversion H2 as [|? ? H3 _]; subst. destruct HT as [<-|[<-|[]]]; [apply H1; right; exact Q|exact (H3 Q)].
  - destruct HT as [<-|[<-|[]]]; [contradiction|].
    cbn [new]. rewrite enter_fine by exact HF. cbn [pos Construct.kw]. destruct (bind_params (params NSigner) vs kw) as [[r c]|e] eqn:E; cbn [bind]; [|eauto].
    assert (Q : In "payload" (map fst (Construct.kw c))) by (apply (HB _ _ _ _ _ E); [cbn; intuition discriminate|exact HN]).
    destruct r as [|p [|u [|pl [|ad [|ky [|]]]]]]; eauto. exists TypeError. unfold message_init. rewrite enter_rough; [reflexivity|]. cbn [Construct.kw map fst].
    intros [ND _]. inversion ND as [|? ? H1 _]; subst. apply H1. right. right. exact Q.
Qed.
Print Assumptions C117_taken.

(** Only the meaningful names count, and their order does not ... *)
Theorem C117_meaning : forall X k vs kw kw', each_once kw -> each_once kw' ->
  (forall n a, In n (meaningful k) -> (In (n, a) kw <-> In (n, a) kw')) -> new X k (Call vs kw) = new X k (Call vs kw').
Proof.
  intros X k vs kw kw' HO HO' H.
  assert (G : forall n, In n (meaningful k) -> get_kw n kw = get_kw n kw').
  { intros n HI. destruct (get_kw n kw) as [a|] eqn:E.
    - symmetry. apply get_some; [exact HO'|]. apply H; [exact HI|]. apply get_some; assumption.
    - destruct (get_kw n kw') as [a|] eqn:E'; [|reflexivity]. apply get_some in E'; [|exact HO']. apply H in E'; [|exact HI]. apply get_some in E'; [congruence|exact HO]. }
  assert (S : In "self" (meaningful k)) by (unfold meaningful; apply in_app_iff; right; apply in_app_iff; right; destruct k; left; reflexivity).
  pose proof (G _ S) as GS. destruct (get_kw "self" kw) eqn:E.
  - assert (A : ~ fine kw) by (intros [_ Q]; apply get_none in Q; congruence).
    assert (A' : ~ fine kw') by (intros [_ Q]; apply get_none in Q; congruence).
    rewrite !(new_refused X k _ TypeError); [reflexivity| |]; apply enter_rough; assumption.
  - symmetry in GS. apply get_none in E. apply get_none in GS. apply new_same. split; [reflexivity|]. cbn [Construct.kw]. split; [split; assumption|]. split; [split; assumption|exact G].
Qed.
Print Assumptions C117_meaning.
Theorem C117_order : forall X k vs kw kw', each_once kw -> Permutation kw kw' -> new X k (Call vs kw) = new X k (Call vs kw').
Proof.
  intros X k vs kw kw' HO HP. apply C117_meaning; [exact HO| |].
  - unfold each_once. apply (Permutation_NoDup (Permutation_map fst HP)). exact HO.
  - intros n a _. split; apply Permutation_in; [exact HP|apply Permutation_sym; exact HP].
Qed.
Print Assumptions C117_order.

(** ... so an argument under any other name is ignored without a word. Whoever misspells
    [external_aad] gets a message that is not bound to the external data. *)
Theorem C117_misspelt_refuted : forall X k vs kw n a, each_once ((n, a) :: kw) -> ~ In n (meaningful k) ->
  new X k (Call vs ((n, a) :: kw)) = new X k (Call vs kw).
Proof.
  intros X k vs kw n a HO HN. apply C117_meaning; [exact HO|inversion HO; assumption|].
  intros m b HM. cbn [In]. split; [intros [E|H]; [injection E as <- _; contradiction|exact H]|tauto].
Qed.
Print Assumptions C117_misspelt_refuted.

(** One byte string too many is ignored in the same way by six of the classes; the other two
    refuse any argument beyond the last. *)
Theorem C117_too_many_refuted : forall X k vs b kw, k <> NSign -> k <> NSigner -> length vs = length (documented k) ->
  new X k (Call (vs ++ [AVal (VBytes b)]) kw) = new X k (Call vs kw).
Proof.
  intros X k vs b kw H1 H2 HL. rewrite <- params_names, map_length in HL.
  destruct (repeated (map fst kw)) eqn:R.
  { rewrite !C117_twice; [reflexivity| |]; right; intros H; apply repeated_spec in H; congruence. }
  apply repeated_spec in R. destruct (in_dec string_dec "self" (map fst kw)) as [S|S].
  { rewrite !(new_refused X k _ TypeError); [reflexivity| |]; apply enter_rough; intros [_ Q]; exact (Q S). }
  assert (HF : fine kw) by (split; assumption).
  destruct (existsb (fun n => existsb (String.eqb n) (map fst kw)) (map fst (params k))) eqn:D.
  - apply existsb_exists in D as (n & HI & HK). apply existsb_name in HK.
    rewrite !C117_twice; [reflexivity| |]; left; exists n; (split; [|exact HK]); rewrite <- params_names, firstn_all2; try exact HI; rewrite map_length; [|rewrite app_length]; lia.
  - assert (HN : forall n, In n (map fst (params k)) -> get_kw n kw = None).
    { intros n HI. apply get_none. intros HK. apply Bool.diff_false_true. rewrite <- D. apply existsb_exists. exists n. split; [exact HI|]. apply existsb_name. exact HK. }
    assert (HM : forall n, In n (map fst (message_params none)) -> get_kw n kw = None).
    { intros n HI. apply HN. destruct k; try congruence; revert HI; cbn; intuition. }
    assert (EB : forall s : list arg, enter (params k) (Call (vs ++ s) kw) = Ok (vs, Call s kw)).
    { intros s. rewrite enter_fine by exact HF. apply bind_full; assumption. }
    pose proof (EB [AVal (VBytes b)]) as E1. pose proof (EB []) as E0. rewrite app_nil_r in E0.
    assert (FW : forall d vs5 (s : list arg), length vs5 = 5%nat -> forward (message_params d) (Call (vs5 ++ s) kw) = Ok (Call (vs5 ++ s) kw)).
    { intros d vs5 s H5. unfold forward. rewrite enter_fine by exact HF. cbn [pos Construct.kw]. rewrite (bind_full (message_params d) vs5 s kw H5 HM). reflexivity. }
    assert (MI : forall p u pl ad ky, message_init X (Call ([p; u; pl; ad; ky] ++ [AVal (VBytes b)]) kw) = message_init X (Call [p; u; pl; ad; ky] kw)).
    { intros p u pl ad ky. unfold message_init. rewrite !enter_fine by exact HF. cbn [pos Construct.kw].
      rewrite (bind_full (message_params none) [p; u; pl; ad; ky] [AVal (VBytes b)] kw eq_refl HM).
      pose proof (bind_full (message_params none) [p; u; pl; ad; ky] [] kw eq_refl HM) as Q. cbn [app] in Q. rewrite Q. cbn [bind pos Construct.kw].
      assert (G1 : get_kw "phdr" kw = None) by (apply HM; cbn; intuition). assert (G2 : get_kw "uhdr" kw = None) by (apply HM; cbn; intuition).
      assert (G3 : get_kw "payload" kw = None) by (apply HM; cbn; intuition).
      unfold base_init. rewrite !enter_fine by exact HF. cbn [pos Construct.kw base_params bind_params]. rewrite G1, G2, G3.
      destruct (get_kw "phdr_encoded" kw) as [e|] eqn:GE; cbn [bind bind_params Construct.kw].
      - match goal with |- bind (bind ?A _) _ = _ => destruct A as [ph|x]; [|reflexivity] end. cbn [bind].
        destruct ph; try reflexivity; destruct (match val u with VNone => VDict [] | _ => _ end); try reflexivity.
        match goal with |- bind (bind (parse_items ?x ?y ?z ?w) _) _ = _ => destruct (parse_items x y z w) as [pd|q]; [|reflexivity] end. cbn [bind].
        match goal with |- bind (bind (parse_items ?x ?y ?z ?w) _) _ = _ => destruct (parse_items x y z w) as [ud|q]; [|reflexivity] end. cbn [bind].
        match goal with |- bind (bind ?A _) _ = bind (bind ?A _) _ => destruct A as [raw|q]; [|reflexivity] end. reflexivity.
      - match goal with |- bind (bind ?A _) _ = _ => destruct A as [ph|x]; [|reflexivity] end. cbn [bind].
        destruct ph; try reflexivity; destruct (match val u with VNone => VDict [] | _ => _ end); try reflexivity.
        match goal with |- bind (bind (parse_items ?x ?y ?z ?w) _) _ = _ => destruct (parse_items x y z w) as [pd|q]; [|reflexivity] end. cbn [bind].
        match goal with |- bind (bind (parse_items ?x ?y ?z ?w) _) _ = _ => destruct (parse_items x y z w) as [ud|q]; [|reflexivity] end. reflexivity. }
    assert (F5 : forall s : list arg, forward (params k) (Call (vs ++ s) kw) = Ok (Call (vs ++ s) kw)).
    { intros s. unfold forward. rewrite EB. reflexivity. }
    pose proof (F5 [AVal (VBytes b)]) as P1. pose proof (F5 []) as P0. rewrite app_nil_r in P0.
    assert (W6 : forall p u pl ad ky rs (s : list arg), vs = [p; u; pl; ad; ky; rs] ->
                 with_recipients k (Call (vs ++ s) kw) = Ok (Call ([p; u; pl; ad; ky] ++ s) kw, rs)).
    { intros p u pl ad ky rs s EV. unfold with_recipients. rewrite EB, EV. reflexivity. }
    destruct k; try congruence; cbn [new].
    + rewrite P1, P0. destruct vs as [|p [|u [|pl [|ad [|ky [|]]]]]]; try discriminate HL. cbn [bind]. rewrite MI. reflexivity.
    + rewrite P1, P0. destruct vs as [|p [|u [|pl [|ad [|ky [|]]]]]]; try discriminate HL. cbn [bind].
      pose proof (FW empty [p; u; pl; ad; ky] [] eq_refl) as F0. rewrite app_nil_r in F0. rewrite (FW empty [p; u; pl; ad; ky] _ eq_refl), F0. cbn [bind]. rewrite MI. reflexivity.
    + destruct vs as [|p [|u [|pl [|ad [|ky [|rs [|]]]]]]]; try discriminate HL. pose proof (W6 _ _ _ _ _ _ [] eq_refl) as W0. rewrite !app_nil_r in W0. rewrite (W6 _ _ _ _ _ _ _ eq_refl), W0. cbn [bind].
      pose proof (FW empty [p; u; pl; ad; ky] [] eq_refl) as F0. rewrite app_nil_r in F0. rewrite (FW empty [p; u; pl; ad; ky] _ eq_refl), F0. cbn [bind]. rewrite MI. reflexivity.
    + rewrite P1, P0. destruct vs as [|p [|u [|pl [|ad [|ky [|]]]]]]; try discriminate HL. cbn [bind].
      pose proof (FW empty [p; u; pl; ad; ky] [] eq_refl) as F0. rewrite app_nil_r in F0. rewrite (FW empty [p; u; pl; ad; ky] _ eq_refl), F0. cbn [bind]. rewrite MI. reflexivity.
    + destruct vs as [|p [|u [|pl [|ad [|ky [|rs [|]]]]]]]; try discriminate HL. pose proof (W6 _ _ _ _ _ _ [] eq_refl) as W0. rewrite !app_nil_r in W0. rewrite (W6 _ _ _ _ _ _ _ eq_refl), W0. cbn [bind].
      pose proof (FW empty [p; u; pl; ad; ky] [] eq_refl) as F0. rewrite app_nil_r in F0. rewrite (FW empty [p; u; pl; ad; ky] _ eq_refl), F0. cbn [bind]. rewrite MI. reflexivity.
    + destruct vs as [|p [|u [|pl [|ad [|ky [|rs [|]]]]]]]; try discriminate HL. pose proof (W6 _ _ _ _ _ _ [] eq_refl) as W0. rewrite !app_nil_r in W0. rewrite (W6 _ _ _ _ _ _ _ eq_refl), W0. cbn [bind].
      rewrite MI. reflexivity.
Qed.
Print Assumptions C117_too_many_refuted.
Theorem C117_too_many_partial : forall X k vs kw, k = NSign \/ k = NSigner -> (length (documented k) < length vs)%nat -> exists e, new X k (Call vs kw) = Err e.
Proof.
  intros X k vs kw HK HL.
  assert (HE : forall l c, enter (params k) (Call vs kw) = Ok (l, c) -> pos c <> []).
  { intros l c H. unfold enter in H. destruct (_ || _); [discriminate|]. cbn [pos Construct.kw] in H. rewrite <- params_names, map_length in HL. revert HL H.
    generalize (params k) as ps. intros ps. revert vs kw l c. induction ps as [|[n d] ps IH]; intros vs kw l c HL H; destruct vs as [|v vs]; cbn [length] in HL; try lia; cbn [bind_params] in H.
    - injection H as _ <-. discriminate.
    - destruct (get_kw n kw); [discriminate|]. apply bind_ok in H as ([r q] & H & E). injection E as _ <-. apply (IH vs kw r q); [lia|exact H]. }
  assert (MT : forall vs' l n, In n (firstn (length vs') (map fst (message_params none))) -> In n (map fst l) -> message_init X (Call vs' l) = Err TypeError).
  { intros vs' l n H1 H2. unfold message_init. destruct (repeated (map fst l)) eqn:R; [rewrite enter_rough; [reflexivity|]; intros [Q _]; apply repeated_spec in Q; cbn [Construct.kw] in Q; congruence|].
    apply repeated_spec in R. destruct (in_dec string_dec "self" (map fst l)) as [S|S]; [rewrite enter_rough; [reflexivity|]; intros [_ Q]; exact (Q S)|].
    rewrite enter_fine by (split; assumption). cbn [pos Construct.kw]. rewrite (bind_twice _ _ _ n); [reflexivity| |exact H1|intros Q; apply get_none in Q; contradiction].
    repeat constructor; cbn; intuition discriminate. }
  destruct HK as [-> | ->]; cbn [new].
  - destruct (enter (params NSign) (Call vs kw)) as [[l c]|e]; cbn [bind]; [|eauto]. specialize (HE _ _ eq_refl).
    destruct l as [|p [|u [|pl [|s [|]]]]]; eauto. destruct (pos c) as [|v r] eqn:EP; [contradiction|]. cbn [app]. exists TypeError. rewrite (MT _ _ "external_aad"); [reflexivity| |]; cbn; tauto.
  - destruct (enter (params NSigner) (Call vs kw)) as [[l c]|e]; cbn [bind]; [|eauto]. specialize (HE _ _ eq_refl).
    destruct l as [|p [|u [|pl [|ad [|ky [|]]]]]]; eauto. destruct (pos c) as [|v r] eqn:EP; [contradiction|]. cbn [app]. exists TypeError. rewrite (MT _ _ "payload"); [reflexivity| |]; cbn; tauto.
Qed.
Print Assumptions C117_too_many_partial.

(** ** Fields *)

(** Whatever was passed by name is what the object has; a signer's payload is its signature.
    Anything of a wrong type is refused. *)
Theorem C117_fields : forall X k kw o, each_once kw -> new X k (Call [] kw) = Ok o ->
  (forall a, passed kw (payload_name k) (payload_default k) a -> is_payload a (payload (o_core o))) /\
  (k <> NSign -> forall a, passed kw "external_aad" (AVal (VBytes [])) a -> is_aad a (aad (o_core o))) /\
  (k <> NSign -> forall a, passed kw "key" (AVal VNone) a -> is_key a (ckey (o_core o))) /\
  (k = NSign -> aad (o_core o) = [] /\ ckey (o_core o) = None) /\ local (o_core o) = [].
Proof.
  intros X k kw o HO H.
  assert (HT : forall n, In n (taken k) -> ~ In n (map fst kw)).
  { intros n H1 H2. destruct (C117_taken X k [] kw n H1 H2) as [e E]. congruence. }
  rewrite (new_keywords X k kw HO HT) in H. destruct (core_init X (the_args k kw)) as [c|e] eqn:E; [|discriminate].
  assert (EC : o_core o = c).
  { destruct k; try (injection H as <-; reflexivity); [destruct (take_signers _)|destruct (take_recipients _)|destruct (take_recipients _)]; try discriminate; injection H as <-; reflexivity. }
  rewrite EC. apply core_init_inv in E as (pd & ud & _ & _ & _ & _ & _ & HP & HA & HK & HL & _).
  assert (PV : forall a q, check_payload (val a) = Ok q -> is_payload a q).
  { intros [v|l|l] q Q; [destruct v|..]; cbn [val check_payload] in Q; try discriminate Q; injection Q as <-; constructor. }
  assert (AV : forall a q, val a = VBytes q -> is_aad a q).
  { intros [v|l|l] q Q; [|discriminate Q|discriminate Q]. cbn [val] in Q. rewrite Q. constructor. }
  assert (KV : forall a q, check_key (val a) = Ok q -> is_key a q).
  { intros [v|l|l] q Q; [destruct v|..]; cbn [val check_key] in Q; try discriminate Q; injection Q as <-; constructor. }
  split; [|split; [|split; [|split; [|exact HL]]]].
  - intros a Pa. apply (passed_given _ _ _ _ HO) in Pa. unfold the_args in HP. cbn [a_payload] in HP. rewrite Pa in HP. exact (PV _ _ HP).
  - intros HK' a Pa. apply (passed_given _ _ _ _ HO) in Pa. unfold the_args, empty in HA. cbn [a_aad] in HA. rewrite Pa in HA. destruct k; try congruence; exact (AV _ _ HA).
  - intros HK' a Pa. apply (passed_given _ _ _ _ HO) in Pa. unfold the_args, none in HK. cbn [a_key] in HK. rewrite Pa in HK. destruct k; try congruence; exact (KV _ _ HK).
  - intros ->. cbn [the_args a_aad a_key check_key] in HA, HK. split; congruence.
Qed.
Print Assumptions C117_fields.

(** With sensible values and headers the object is made: the payload, the external data and
    the key have nothing to do with whether the headers are accepted. *)
Theorem C117_accepts : forall X k kw p u pl ad ky e t al c b x q, each_once kw ->
  (forall n, In n (taken k) -> ~ In n (map fst kw)) ->
  passed kw "phdr" (AVal VNone) (AVal p) -> passed kw "uhdr" (AVal VNone) (AVal u) -> passed kw "phdr_encoded" (AVal VNone) (AVal e) ->
  passed kw "alg_tstr_encoding" (AVal (VBool false)) (AVal (VBool t)) -> passed kw "allow_unknown_attributes" (AVal (VBool true)) (AVal (VBool al)) ->
  passed kw (payload_name k) (payload_default k) pl -> passed kw "external_aad" (AVal (VBytes [])) ad -> passed kw "key" (AVal VNone) ky ->
  is_payload pl b -> is_aad ad x -> is_key ky q ->
  passed kw "recipients" (AVal VNone) (AVal VNone) -> passed kw "signers" (AVal VNone) (AVal VNone) ->
  core_init X (Args p u VNone (VBytes []) VNone e t al) = Ok c ->
  exists o, new X k (Call [] kw) = Ok o /\ phdr (o_core o) = phdr c /\ uhdr (o_core o) = uhdr c /\ phdr_raw (o_core o) = phdr_raw c /\ tstr (o_core o) = t.
Proof.
  intros X k kw p u pl ad ky e t al c b x q HO HT Pp Pu Pe Pt Pal Ppl Pad Pky Ib Ix Iq Pr Ps HC. rewrite (new_keywords X k kw HO HT).
  apply (passed_given _ _ _ _ HO) in Pp, Pu, Pe, Pt, Pal, Ppl, Pad, Pky, Pr, Ps.
  assert (ET : tstr_of kw = t) by (unfold tstr_of, given in *; destruct (get_kw "alg_tstr_encoding" kw); [subst a; reflexivity|congruence]).
  assert (EA : allow_of kw = al) by (unfold allow_of, given in *; destruct (get_kw "allow_unknown_attributes" kw); [subst a; reflexivity|congruence]).
  assert (E : exists m, core_init X (the_args k kw) = Ok m /\ phdr m = phdr c /\ uhdr m = uhdr c /\ phdr_raw m = phdr_raw c /\ tstr m = t).
  { unfold the_args. unfold none, empty. rewrite Pp, Pu, Pe, Ppl, Pad, Pky, ET, EA. cbn [val].
    assert (CP : check_payload (val pl) = Ok b) by (destruct Ib; reflexivity).
    assert (CA : exists y, check_aad (match k with NSign => VBytes [] | _ => val ad end) = Ok y) by (destruct Ix; destruct k; eexists; reflexivity).
    assert (CK : exists y, check_key (match k with NSign => VNone | _ => val ky end) = Ok y) by (destruct Iq; destruct k; eexists; reflexivity).
    destruct CA as [y CA], CK as [z CK]. unfold core_init in *. cbn [a_phdr a_uhdr a_payload a_aad a_key a_phdr_encoded a_tstr a_allow] in *. rewrite CP, CA, CK.
    match type of HC with bind ?A _ = Ok c => destruct A as [ph|]; [|discriminate HC] end. cbn [bind] in *.
    destruct ph; try discriminate HC. set (uh := match u with VNone => VDict [] | _ => _ end) in *. clearbody uh. destruct uh; try discriminate HC.
    destruct (parse_items X al d []) as [pd|]; [|discriminate HC]. cbn [bind] in *. destruct (parse_items X al d0 []) as [ud|]; [|discriminate HC]. cbn [bind] in *.
    match type of HC with bind ?A _ = Ok c => destruct A as [raw|]; [|discriminate HC] end. cbn [bind check_payload check_aad as_bytes check_key] in *.
    injection HC as <-. eexists. split; [reflexivity|]. cbn [phdr uhdr phdr_raw tstr]. auto. }
  destruct E as (m & -> & E). unfold none. rewrite Pr, Ps. destruct k; cbn [take_signers take_recipients]; eexists; (split; [reflexivity|exact E]).
Qed.
Print Assumptions C117_accepts.

(** The signers and recipients of the new object are the ones it was given. *)
Theorem C117_members : forall X k kw o, each_once kw -> new X k (Call [] kw) = Ok o ->
  (k = NSign -> forall s, passed kw "signers" (AVal VNone) (ASigners s) -> o_members o = ASigners s) /\
  (k = NSign -> passed kw "signers" (AVal VNone) (AVal VNone) -> o_members o = ASigners []) /\
  (k = NEnc \/ k = NRcpt -> forall r, passed kw "recipients" (AVal VNone) (ARcpts r) -> o_members o = ARcpts r /\ ~ In None r) /\
  (k = NEnc \/ k = NRcpt -> passed kw "recipients" (AVal VNone) (AVal VNone) -> o_members o = ARcpts []) /\
  (k = NMac -> forall a, passed kw "recipients" (AVal VNone) a -> o_members o = a).
Proof.
  intros X k kw o HO H.
  assert (HT : forall n, In n (taken k) -> ~ In n (map fst kw)).
  { intros n H1 H2. destruct (C117_taken X k [] kw n H1 H2) as [e E]. congruence. }
  rewrite (new_keywords X k kw HO HT) in H. destruct (core_init X (the_args k kw)) as [c|e]; [|discriminate].
  assert (SR : forall cur r l, set_recipients cur (Some r) = (l, Ok tt) -> map Some l = map Some cur ++ r /\ ~ In None r).
  { unfold set_recipients. intros cur r. revert cur. induction r as [|[y|] r IH]; intros cur l Q; cbn [append_recipients] in Q.
    - injection Q as <-. rewrite app_nil_r. split; [reflexivity|intros []].
    - apply IH in Q as [Q1 Q2]. rewrite map_app in Q1. cbn [map] in Q1. rewrite <- app_assoc in Q1. split; [exact Q1|]. intros [Q|Q]; [discriminate|contradiction].
    - discriminate. }
  split; [|split; [|split; [|split]]].
  - intros -> s P. apply (passed_given _ _ _ _ HO) in P. unfold none in H. rewrite P in H. injection H as <-. reflexivity.
  - intros -> P. apply (passed_given _ _ _ _ HO) in P. unfold none in H. rewrite P in H. injection H as <-. reflexivity.
  - intros HK r P. apply (passed_given _ _ _ _ HO) in P. unfold none in H. rewrite P in H.
    destruct HK as [-> | ->]; cbn [take_recipients] in H; destruct (set_recipients [] (Some r)) as [l [[]|e]] eqn:E; try discriminate; injection H as <-; apply SR in E as [E1 E2]; cbn [map app o_members] in *; rewrite E1; auto.
  - intros HK P. apply (passed_given _ _ _ _ HO) in P. unfold none in H. rewrite P in H. destruct HK as [-> | ->]; injection H as <-; reflexivity.
  - intros -> a P. apply (passed_given _ _ _ _ HO) in P. unfold none in H. rewrite P in H. injection H as <-. reflexivity.
Qed.
Print Assumptions C117_members.

(** The objects the other properties speak of are these: each constructor call by name gives
    what [sign1_init] and its likes give for the same arguments. *)
Theorem C117_objects : forall X l p u pl ad ky e t al, each_once l ->
  passed l "phdr" (AVal VNone) (AVal p) -> passed l "uhdr" (AVal VNone) (AVal u) ->
  passed l "external_aad" (AVal (VBytes [])) (AVal ad) -> passed l "key" (AVal VNone) (AVal ky) -> passed l "phdr_encoded" (AVal VNone) (AVal e) ->
  passed l "alg_tstr_encoding" (AVal (VBool false)) (AVal (VBool t)) -> passed l "allow_unknown_attributes" (AVal (VBool true)) (AVal (VBool al)) ->
  ~ In "self" (map fst l) ->
  let a := Args p u pl ad ky e t al in
  (passed l "payload" (AVal VNone) (AVal pl) ->
   new X NSign1 (Call [] l) = bind (sign1_init X a) (fun m => Ok (Obj (s1_core m) (s1_sig m) none)) /\
   (forall s, ~ In "external_aad" (map fst l) -> ~ In "key" (map fst l) -> passed l "signers" (AVal VNone) (ASigners s) ->
    new X NSign (Call [] l) = bind (sign_init X a s) (fun m => Ok (Obj (sm_core m) VNone (ASigners (sm_signers m)))))) /\
  (passed l "signature" (AVal (VBytes [])) (AVal pl) -> ~ In "payload" (map fst l) ->
   new X NSigner (Call [] l) = bind (signer_init X a) (fun m => Ok (Obj m VNone none))) /\
  (passed l "payload" (AVal (VBytes [])) (AVal pl) ->
   new X NEnc0 (Call [] l) = bind (enc0_init X a) (fun m => Ok (Obj m VNone none)) /\
   new X NMac0 (Call [] l) = bind (mac0_init X a) (fun m => Ok (Obj (m0_core m) (m0_tag m) none)) /\
   forall r, passed l "recipients" (AVal VNone) (ARcpts r) ->
   new X NEnc (Call [] l) = bind (enc_init X a (Some r)) (fun m => Ok (Obj (e_core m) VNone (ARcpts (map Some (e_rcpts m))))) /\
   (forall id rc, new X NRcpt (Call [] l) = bind (rcpt_init X id rc a (Some r)) (fun m => Ok (Obj (r_core m) VNone (ARcpts (map Some (r_subs m)))))) /\
   (forall rs, r = map Some rs -> new X NMac (Call [] l) = bind (mac_init X a (Some rs)) (fun m => Ok (Obj (mm_core m) (mm_tag m) (ARcpts (map Some (match mm_rcpts m with Some q => q | None => [] end))))))).
Proof.
  intros X l p u pl ad ky e t al HO Pp Pu Pad Pky Pe Pt Pal HS a.
  apply (passed_given _ _ _ _ HO) in Pp, Pu, Pad, Pky, Pe, Pt, Pal.
  assert (ET : tstr_of l = t) by (unfold tstr_of, given in *; destruct (get_kw "alg_tstr_encoding" l); [subst a0; reflexivity|congruence]).
  assert (EA : allow_of l = al) by (unfold allow_of, given in *; destruct (get_kw "allow_unknown_attributes" l); [subst a0; reflexivity|congruence]).
  assert (HT : forall k n, taken k = ["self"] -> In n (taken k) -> ~ In n (map fst l)) by (intros k n -> [<-|[]]; exact HS).
  assert (AR : forall k, given (payload_name k) (payload_default k) l = AVal pl -> k <> NSign -> the_args k l = a).
  { intros k P HK. unfold the_args, a, none, empty. rewrite Pp, Pu, P, Pad, Pky, Pe, ET, EA. destruct k; try congruence; reflexivity. }
  split; [|split].
  - intros Ppl. apply (passed_given _ _ _ _ HO) in Ppl. split.
    + rewrite new_keywords; [|exact HO|intros n; apply (HT NSign1 n eq_refl)]. rewrite AR; [|exact Ppl|discriminate]. unfold sign1_init. destruct (core_init X a); reflexivity.
    + intros s H1 H2 Ps. apply (passed_given _ _ _ _ HO) in Ps. rewrite new_keywords; [|exact HO|intros n [<-|[<-|[<-|[]]]]; assumption].
      unfold none. rewrite Ps. cbn [take_signers]. unfold sign_init. cbn [a a_phdr a_uhdr a_payload a_phdr_encoded a_tstr a_allow].
      replace (the_args NSign l) with (Args p u pl (VBytes []) VNone e t al); [destruct (core_init X _); reflexivity|].
      unfold the_args, none. cbn [payload_name payload_default]. rewrite Pp, Pu, Ppl, Pe, ET, EA. reflexivity.
  - intros Ppl HN. apply (passed_given _ _ _ _ HO) in Ppl. rewrite new_keywords; [|exact HO|intros n [<-|[<-|[]]]; assumption].
    rewrite AR; [|exact Ppl|discriminate]. unfold signer_init. destruct (core_init X a); reflexivity.
  - intros Ppl. apply (passed_given _ _ _ _ HO) in Ppl. split; [|split].
    + rewrite new_keywords; [|exact HO|intros n; apply (HT NEnc0 n eq_refl)]. rewrite AR; [|exact Ppl|discriminate]. unfold enc0_init. destruct (core_init X a); reflexivity.
    + rewrite new_keywords; [|exact HO|intros n; apply (HT NMac0 n eq_refl)]. rewrite AR; [|exact Ppl|discriminate]. unfold mac0_init. destruct (core_init X a); reflexivity.
    + intros r Pr. apply (passed_given _ _ _ _ HO) in Pr. split; [|split].
      * rewrite new_keywords; [|exact HO|intros n; apply (HT NEnc n eq_refl)]. rewrite AR; [|exact Ppl|discriminate]. unfold enc_init, none. rewrite Pr. cbn [take_recipients].
        destruct (core_init X a); [|reflexivity]. cbn [bind]. destruct (set_recipients [] (Some r)) as [q [[]|x]]; reflexivity.
      * intros id rc. rewrite new_keywords; [|exact HO|intros n; apply (HT NRcpt n eq_refl)]. rewrite AR; [|exact Ppl|discriminate]. unfold rcpt_init, none. rewrite Pr. cbn [take_recipients].
        destruct (core_init X a); [|reflexivity]. cbn [bind]. destruct (set_recipients [] (Some r)) as [q [[]|x]]; reflexivity.
      * intros rs ->. rewrite new_keywords; [|exact HO|intros n; apply (HT NMac n eq_refl)]. rewrite AR; [|exact Ppl|discriminate]. unfold mac_init, none. rewrite Pr.
        destruct (core_init X a); reflexivity.
Qed.
Print Assumptions C117_objects.

(** ** A case *)
Definition ex_kw : list (string * arg) :=
  [("key", AVal (VKey KSym [(VClass KpKty, KtySymmetric); (VClass SymKpK, VBytes (bs "0123456789abcdef"))] []));
   ("external_aad", AVal (VBytes (bs "context"))); ("phdr", AVal (VDict [(VStr (bs "ALG"), VStr (bs "A128GCM"))]))].
Example C117_example :
  each_once ex_kw /\ (forall n, In n (taken NEnc0) -> ~ In n (map fst ex_kw)) /\
  (exists o, new toy NEnc0 (Call [AVal VNone; AVal VNone; AVal (VBytes (bs "hello"))] [("external_aad", AVal (VBytes (bs "context")))]) = Ok o /\ aad (o_core o) = bs "context" /\ payload (o_core o) = Some (bs "hello")) /\
  (exists o, new toy NEnc0 (Call [] ex_kw) = Ok o /\ aad (o_core o) = bs "context" /\ payload (o_core o) = Some []) /\
  (exists o, new toy NEnc0 (Call [] [("externel_aad", AVal (VBytes (bs "context")))]) = Ok o /\ aad (o_core o) = []) /\
  ~ In "externel_aad" (meaningful NEnc0) /\
  new toy NSign (Call [] [("external_aad", AVal (VBytes (bs "context")))]) = Err TypeError /\
  new toy NEnc0 (Call [AVal VNone] [("phdr", AVal VNone)]) = Err TypeError.
Proof.
  split; [repeat constructor; cbn; intuition discriminate|]. split; [cbn; intuition (subst; discriminate)|].
  split; [eexists; split; [vm_compute; reflexivity|split; reflexivity]|]. split; [eexists; split; [vm_compute; reflexivity|split; reflexivity]|].
  split; [eexists; split; [vm_compute; reflexivity|reflexivity]|]. split; [cbn; intuition discriminate|]. split; vm_compute; reflexivity.
Qed.
