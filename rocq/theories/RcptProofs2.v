(** Proofs about recipient searches, mixing and malformed recipients (C47-C49). *)
From Coq Require Import NArith ZArith Bool String Lia.
From Coq Require Import Init.Byte List.
From Verif Require Import Bytes Value ValueProofs Cbor SpecData DataProofs Registry Crypto Keys Algorithms Headers Messages Recipients
  SpecRegistry RegistryProofs SpecKeys SpecAlg SpecHdr SpecTrip SpecMsg SpecRcpt KeyProofs KeyProofs2 HdrProofs HdrProofs2 RcptProofs.
Import ListNotations.

Lemma search_iff : forall t rs,
  has_recipient t rs = true <->
  (exists r, In r rs /\ r_id r = t) \/
  (exists before r after, rs = before ++ r :: after /\ r_subs r <> [] /\ (forall x, In x after -> r_subs x = []) /\
     has_recipient t (r_subs r) = true).
Proof.
  intros t rs. rewrite has_recipient_search, search_exact, orb_true_iff.
  assert (H1 : existsb (fun r => N.eqb t (r_id r)) rs = true <-> exists r, In r rs /\ r_id r = t).
  { rewrite existsb_exists. split; intros (r & HI & HE); exists r; (split; [assumption|]); apply N.eqb_eq; [apply N.eqb_eq in HE; subst|]; auto; apply N.eqb_refl. }
  rewrite H1. apply or_iff_compat_l. clear H1.
  induction rs as [|x rs IH] using rev_ind.
  - split; [discriminate|]. intros (b & r & a & E & _). destruct b; discriminate.
  - rewrite filter_app, rev_app_distr. cbn [filter]. unfold nested at 1. destruct (r_subs x) as [|s ss] eqn:ES; cbn [rev app].
    + rewrite IH. split.
      * intros (b & r & a & -> & HR & HA & HH). exists b, r, (a ++ [x]). rewrite <- app_assoc. repeat (split; [auto|]); [|exact HH].
        intros y HY. apply in_app_or in HY as [HY|[<-|[]]]; auto.
      * intros (b & r & a & E & HR & HA & HH). destruct a as [|y a] using rev_ind.
        { apply app_inj_tail in E as [_ <-]. congruence. }
        rewrite app_comm_cons, app_assoc in E. apply app_inj_tail in E as [-> <-]. exists b, r, a. repeat (split; [auto|]); [|exact HH].
        intros z HZ. apply HA. apply in_or_app. auto.
    + split.
      * intros H. exists rs, x, []. split; [reflexivity|]. split; [congruence|]. split; [intros y []|congruence].
      * intros (b & r & a & E & HR & HA & HH). destruct a as [|y a] using rev_ind.
        { apply app_inj_tail in E as [_ <-]. congruence. }
        rewrite app_comm_cons, app_assoc in E. apply app_inj_tail in E as [_ <-].
        specialize (HA x ltac:(apply in_or_app; right; left; reflexivity)). congruence.
Qed.

Lemma forest_nil : forall t, ~ in_forest t [].
Proof. intros t H. inversion H as [r rs HI|r rs HI]; destruct HI. Qed.
Lemma has_recipient_chain : forall t rs, chain rs -> (has_recipient t rs = true <-> in_forest t rs).
Proof.
  intros t rs HC. split; [apply has_recipient_sound|]. induction HC as [rs HF|b r a HB HA HC IH]; intros H.
  - apply search_iff. destruct H as [r rs HI HE|r rs HI HN]; [left; eauto|]. rewrite (HF r HI) in HN. elim (forest_nil _ HN).
  - apply search_iff. inversion H as [r0 rs0 HI HE|r0 rs0 HI HN]; subst; [left; eauto|]. right.
    assert (E : in_forest t (r_subs r)).
    { apply in_app_or in HI as [HI|[->|HI]]; [rewrite (HB _ HI) in HN|exact HN|rewrite (HA _ HI) in HN]; elim (forest_nil _ HN). }
    exists b, r, a. split; [reflexivity|]. split; [intros E0; rewrite E0 in E; elim (forest_nil _ E)|]. auto.
Qed.

Section Rcpt2.
Variable X : crypto.

Lemma mixed_refused : forall n,
  (forall m tag b, snd (encm_encode X n m tag true) = Ok b -> may_mix (e_rcpts m)) /\
  (forall m r p, snd (encm_decrypt X m r) = Ok p -> may_mix (e_rcpts m)) /\
  (forall m rs tag b, mm_rcpts m = Some rs -> snd (macm_encode X n m tag true) = Ok b -> may_mix rs).
Proof.
  intros n. split; [|split].
  - intros m tag b H. apply verify_mix. unfold encm_encode in H. destruct (phdr_encoded _); [|discriminate].
    unfold encm_encrypt in H. destruct (get_attr _ Algorithm); [|discriminate]. cbn [bind] in H.
    destruct (verify_recipients (e_rcpts m)) as [[]|]; [reflexivity|discriminate].
  - intros m r p H. apply verify_mix. unfold encm_decrypt in H. destruct (get_attr _ Algorithm); [|discriminate].
    destruct (negb _); [discriminate|]. destruct (verify_recipients (e_rcpts m)) as [[]|]; [reflexivity|discriminate].
  - intros m rs tag b HR H. apply verify_mix. unfold macm_encode in H. destruct (phdr_encoded _); [|discriminate].
    unfold macm_compute_tag in H. destruct (get_attr _ Algorithm); [|discriminate]. rewrite HR in H.
    destruct (verify_recipients rs) as [[]|]; [reflexivity|discriminate].
Qed.

Lemma create_all_each : forall allow ctx l id rs, create_all X allow ctx id l = Ok rs ->
  Forall2 (fun v r => create_recipient X allow ctx (r_id r) v = Ok r) l rs.
Proof.
  intros allow ctx l. induction l as [|v l IH]; intros id rs H; cbn [create_all] in H; [injection H as <-; constructor|].
  apply bind_ok in H as (r & HR & H). apply bind_ok in H as (rs' & HS & H). injection H as <-. constructor; [|eauto].
  pose proof (create_subs X _ _ _ _ _ HR) as [_ E]. congruence.
Qed.

(** Received recipients are numbered in order. *)
Lemma create_all_distinct : forall allow ctx l id rs, create_all X allow ctx id l = Ok rs ->
  NoDup (map r_id rs) /\ forall r, In r rs -> (id <= r_id r)%N.
Proof.
  intros allow ctx l. induction l as [|v l IH]; intros id rs H; cbn [create_all] in H; [injection H as <-; split; [constructor|intros _ []]|].
  apply bind_ok in H as (r & HR & H). apply bind_ok in H as (rs' & HS & H). injection H as <-.
  pose proof (create_subs X _ _ _ _ _ HR) as [_ E]. apply IH in HS as [HD HL]. split.
  - cbn [map]. constructor; [|exact HD]. intros HI. apply in_map_iff in HI as (r' & E' & HI). apply HL in HI. lia.
  - intros r' [<-|HI]; [lia|]. apply HL in HI. lia.
Qed.

Lemma recipients_from_distinct : forall allow ctx rest rs, recipients_from X allow ctx rest = Ok (Some rs) -> NoDup (map r_id rs).
Proof.
  intros allow ctx rest rs H. apply recipients_from_some in H as (v & l & _ & _ & H). apply create_all_distinct in H as [H _]. exact H.
Qed.

Lemma all_or_none : forall e allow b,
  (forall m, decode X e allow (VBytes b) = Ok (MEnc m) -> e_rcpts m <> [] ->
    exists x y z l rest, loads_bytes b = Ok (VTag 96 (VList (x :: y :: z :: l :: rest))) /\
      exists vs, py_iter l = Ok vs /\ Forall2 (fun v r => create_recipient X allow (VStr (bs "Enc_Recipient")) (r_id r) v = Ok r) vs (e_rcpts m)) /\
  (forall m rs, decode X e allow (VBytes b) = Ok (MMac m) -> mm_rcpts m = Some rs ->
    exists x y z t l rest, loads_bytes b = Ok (VTag 97 (VList (x :: y :: z :: t :: l :: rest))) /\
      exists vs, py_iter l = Ok vs /\ Forall2 (fun v r => create_recipient X allow (VStr (bs "Mac_Recipient")) (r_id r) v = Ok r) vs rs).
Proof.
  intros e allow b. split.
  - intros m H HN. apply enc_decoded in H as (obj & c & rest & HL & HC & _ & o & HO & ER). destruct o as [rs|]; [|congruence].
    rewrite ER. apply recipients_from_some in HO as (v & l & HV & HI & HO). destruct rest as [|v' rest]; [discriminate|]. injection HV as ->.
    apply core_from_obj_inv in HC as (p & u & pl & c0 & -> & _). exists p, u, pl, v, rest. split; [exact HL|]. exists l.
    split; [exact HI|]. eapply create_all_each; exact HO.
  - intros m rs H HR. apply mac_decoded in H as (obj & c & t & rest & HL & HC & _ & _ & HO). rewrite HR in HO.
    apply recipients_from_some in HO as (v & l & HV & HI & HO). destruct rest as [|v' rest]; [discriminate|]. injection HV as ->.
    apply core_from_obj_inv in HC as (p & u & pl & c0 & -> & _). exists p, u, pl, t, v, rest. split; [exact HL|]. exists l.
    split; [exact HI|]. eapply create_all_each; exact HO.
Qed.

Lemma rcpt_from_core : forall allow ctx id rc v r, rcpt_from_obj X allow ctx id rc v = Ok r ->
  exists l rest, v = VList l /\ core_from_obj X allow l = Ok (r_core r, rest).
Proof.
  intros allow ctx id rc v r H. unfold rcpt_from_obj in H. destruct v as [|b|z|x|s| | |b|u|l|l|d|t w|t w|c|kc ks ke]; try discriminate.
  apply bind_ok in H as ([c rest] & HC & H). exists l, rest. split; [reflexivity|].
  assert (E : r_core r = c); [|rewrite E; exact HC].
  destruct rc.
  - destruct (negb _); [discriminate|]. apply bind_ok in H as (a & _ & H). destruct (_ && _); [discriminate|]. injection H as <-. auto.
  - apply bind_ok in H as (a & _ & H). apply bind_ok in H as (kw & _ & H). destruct (_ && _); [discriminate|].
    destruct (match payload c with Some [] => true | _ => false end); [discriminate|]. injection H as <-. auto.
  - apply bind_ok in H as (a & _ & H). apply bind_ok in H as (es & _ & H). apply bind_ok in H as (ms & _ & H).
    destruct ms; [discriminate|]. injection H as <-. auto.
  - destruct (match payload c with Some [] => true | _ => false end); [discriminate|]. injection H as <-. auto.
Qed.

Lemma rcpt_class_algs : forall a rc, rcpt_class_of a = Ok rc -> exists z, a = algc z /\ In z (class_algs rc).
Proof.
  intros a rc H. unfold rcpt_class_of in H. destruct (negb _); [discriminate|].
  destruct (find _ rcpt_classes) as [[z rc']|] eqn:EF; [|discriminate]. injection H as <-. apply find_some in EF as [HI HE].
  cbn [fst snd] in *. apply veqb_eq in HE. exists z. split; [exact HE|]. cbn in HI.
  repeat (destruct HI as [HI|HI]; [injection HI as <- <-; cbn; tauto|]). destruct HI.
Qed.

Lemma recipient_well_formed : forall allow ctx id v r, create_recipient X allow ctx id v = Ok r ->
  exists p u w rest, v = VList (VBytes p :: VDict u :: w :: rest) /\
    (p = [] \/ exists d, loads_bytes p = Ok (VDict d)) /\ (w = VNone \/ exists b, w = VBytes b) /\
    exists z, In z (class_algs (r_class r)) /\
      (dget (phdr (r_core r)) Algorithm = Some (algc z) \/ dget (uhdr (r_core r)) Algorithm = Some (algc z)).
Proof.
  intros allow ctx id v r H. unfold create_recipient in H. apply bind_ok in H as (r0 & H0 & H).
  apply bind_ok in H as (pa & HPA & H). apply bind_ok in H as (r1 & H1 & H). apply bind_ok in H as (d & HD & H).
  cbv zeta in H. destruct (is_none _) eqn:EN in H; [discriminate|]. apply bind_ok in H as (rc & HRC & H).
  pose proof (from_obj_subs X _ _ _ _ _ _ H) as (_ & _ & EC).
  apply rcpt_from_core in H as (l & rest & -> & HC). apply core_from_obj_inv in HC as (p & u & pl & c0 & -> & HI & HPL & EQ).
  cbn [py_index nth_error] in H0, H1. injection H0 as <-. injection H1 as <-.
  apply core_init_inv in HI as (pd & ud & HPM & HUM & HP & HU & _). cbn [a_phdr a_phdr_encoded a_uhdr a_allow] in *.
  assert (EP : phdr (r_core r) = phdr c0) by (rewrite EQ; reflexivity). assert (EU : uhdr (r_core r) = uhdr c0) by (rewrite EQ; reflexivity).
  assert (HB : exists b, p = VBytes b /\ (b = [] \/ exists d, loads_bytes b = Ok (VDict d)) /\ pa = dget_or (phdr c0) Algorithm VNone).
  { destruct HPM as [[A B]|[(A & b & -> & C)|(A & B & ->)]]; [discriminate| |].
    - exists b. split; [reflexivity|]. split; [right; eauto|]. destruct (veqb (VBytes b) (VBytes [])) eqn:E.
      + apply veqb_eq in E. injection E as ->. vm_compute in C. discriminate.
      + change (loads (VBytes b)) with (loads_bytes b) in HPA. rewrite C in HPA. cbn [bind parse_header] in HPA. rewrite HP in HPA.
        cbn [bind] in HPA. congruence.
    - cbn [parse_items] in HP. injection HP as <-. destruct B as [->| ->].
      + cbn [veqb] in HPA. discriminate.
      + exists []. split; [reflexivity|]. split; [left; reflexivity|]. cbn in HPA. injection HPA as <-. reflexivity. }
  destruct HB as (b & -> & HB & EPA).
  assert (HUD : u = VDict ud).
  { destruct HUM as [E|[E1 E2]]; [congruence|]. rewrite E1 in HD. discriminate. }
  subst u. cbn [parse_header] in HD. rewrite HU in HD. injection HD as <-.
  exists b, ud, pl, rest. split; [reflexivity|]. split; [exact HB|]. split.
  { destruct pl; cbn in HPL; try discriminate; [left; reflexivity|right; eauto]. }
  apply rcpt_class_algs in HRC as (z & EZ & HZ). exists z. rewrite EC, EP, EU. split; [exact HZ|].
  subst pa. unfold dget_or in EZ, EN. destruct (dget (phdr c0) Algorithm) as [a|].
  - destruct (is_none a) eqn:EA; [|left; congruence]. right. destruct (dget (uhdr c0) Algorithm); [congruence|discriminate].
  - cbn [is_none] in EZ. right. destruct (dget (uhdr c0) Algorithm); [congruence|discriminate].
Qed.

(** ** The public part of a generated key *)

Lemma public_hides : forall k, portable X k -> k_cls k = KEC2 ->
  dget (k_store (public_part k)) (VClass EC2KpD) = None /\
  (forall p, p <> EC2KpD -> param (public_part k) p = param k p) /\
  (forall a v n, In (a, v) (k_store (public_part k)) -> In (EC2KpD, n) (registered (param_fam KEC2)) -> ~ spells EC2KpD n a).
Proof.
  intros k HP HC. pose proof (public_portable X k HP HC) as (_ & HD' & _ & HF & _). destruct HP as (_ & HD & _).
  rewrite distinct_keys_dnodup in HD, HD'.
  assert (HN : dget (k_store (public_part k)) (VClass EC2KpD) = None).
  { unfold public_part. cbn [k_store]. apply dget_ddel_same; [exact HD|apply keyeq_refl]. }
  split; [exact HN|]. split.
  - intros p HE. unfold param, public_part. cbn [k_store]. apply dget_ddel_other. apply keyeq_ne_class. congruence.
  - intros a v n HI HR HS. rewrite Forall_forall in HF. pose proof (HF _ HI) as HO. cbn [fst snd] in HO.
    change (k_cls (public_part k)) with (k_cls k) in HO. rewrite HC in HO.
    assert (HA : a = VClass EC2KpD).
    { inversion HO as [| | | | |p cv m HP|p b HP|z w HU|u w HU]; subst; cbn [params_of param_fam] in *; try (exfalso; eapply unknown_not_spelled; eassumption); cbn [spells] in HS;
        try discriminate HS; cbn in HP; repeat (destruct HP as [<-|HP]; [first [discriminate HS|reflexivity]|]); destruct HP. }
    subst a.
    assert (HM : dmem (k_store (public_part k)) (VClass EC2KpD) = true).
    { rewrite dmem_existsb. apply existsb_exists. exists (VClass EC2KpD, v). split; [exact HI|apply keyeq_refl]. }
    unfold dmem in HM. rewrite HN in HM. discriminate.
Qed.

Lemma encode_sends : forall n r n' r' v, rcpt_encode X n r = ((n', r'), Ok v) -> ckey (r_core r) = None ->
  r_class r = RAgree \/ r_class r = RAgreeKW -> sent_ephemeral X (r_core r) (r_core r').
Proof.
  intros n r n' r' v H HK HC. apply encode_emits in H as (p & w & tail & _ & _ & _ & _ & _ & H).
  destruct HC as [HC|HC]; rewrite HC in H.
  - destruct H as (_ & _ & [[H _]|(_ & pk & H)]); [congruence|]. eapply setup_sent; exact H.
  - apply kakw_encrypt_state in H as [[H _]|(_ & pk & H)]; [congruence|]. eapply setup_sent; exact H.
Qed.

Lemma oaep_checks : forall n c subs k z w, In z [-40; -41; -42]%Z -> get_attr c Algorithm = Ok (alg z) -> ckey c = Some k ->
  (forall v, param k KpKeyOps = Some v -> exists l, v = VList l) ->
  kw_encrypt X n c subs = Ok w -> k_cls k = KRSA /\ alg_ok k (Cls FAlg z) /\ ops_ok k [Cls FOps 5; Cls FOps 3].
Proof.
  intros n c subs k z w HZ HA HK HL H. unfold kw_encrypt in H. rewrite HA in H. cbn [bind is_none] in H.
  destruct (negb _); [discriminate|]. assert (E : alg_in (alg z) aes_kw = Ok false) by (cbn in HZ; destruct HZ as [<-|[<-|[<-|[]]]]; reflexivity).
  assert (E' : alg_in (alg z) oaep = Ok true) by (cbn in HZ; destruct HZ as [<-|[<-|[<-|[]]]]; reflexivity).
  change (is_none (alg z)) with false in H. rewrite E in H. cbn [bind] in H. rewrite E' in H. cbn [bind] in H. rewrite HK in H.
  apply bind_ok in H as ([] & HV & _).
  destruct (key_verify_cases k KRSA (Cls FAlg z) [Cls FOps 5; Cls FOps 3] HL) as [[H1 _] _]. exact (H1 HV).
Qed.
End Rcpt2.
