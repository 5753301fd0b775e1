(** Proofs about classes registered at run time. *)
From Coq Require Import NArith ZArith Bool String Lia Permutation FinFun.
From Coq Require Import Init.Byte List.
From Verif Require Import Bytes BytesProofs Value ValueProofs Registry RegistryProofs Crypto Keys Recipients SpecRegistry Register SpecRegister RegisterProofs
  Plugin SpecPlugin.
Import ListNotations.

Lemma issub_iff : forall c d, issub c d = true <-> subclass c d.
Proof.
  intros c d. split.
  - revert d. induction c as [p|i b IH|i]; intros d H; cbn [issub] in H; destruct (pclass_dec _ d) as [<-|HN]; try (constructor; fail); cbn [orb] in H.
    + destruct d as [q| |]; try discriminate. destruct (in_dec _ _ _); [constructor; assumption|discriminate].
    + constructor. apply IH. exact H.
    + discriminate.
  - induction 1 as [c|p q HI|i b c H IH].
    + destruct c; cbn [issub]; destruct (pclass_dec _ _); try reflexivity; contradiction.
    + cbn [issub]. destruct (in_dec lib_dec q (ancestors p)); [|contradiction]. apply orb_true_r.
    + cbn [issub]. rewrite IH. apply orb_true_r.
Qed.

Lemma issub_not : forall c d, ~ subclass c d -> issub c d = false.
Proof. intros c d H. destruct (issub c d) eqn:E; [apply issub_iff in E; contradiction|reflexivity]. Qed.

Section Table.
Context {K V : Type} (dec : forall a b : K, {a = b} + {a <> b}).

Lemma tget_same : forall (d : list (K * V)) k v, tget dec (tset dec d k v) k = Some v.
Proof.
  induction d as [|[k' v'] d IH]; intros k v; cbn [tset tget]; [destruct (dec k k); [reflexivity|contradiction]|].
  destruct (dec k k') eqn:E; cbn [tget]; rewrite E; [reflexivity|apply IH].
Qed.

Lemma tget_other : forall (d : list (K * V)) k k' v, k <> k' -> tget dec (tset dec d k v) k' = tget dec d k'.
Proof.
  induction d as [|[x b] d IH]; intros k k' v H; cbn [tset tget]; [destruct (dec k' k); [congruence|reflexivity]|].
  destruct (dec k x) as [->|E]; cbn [tget]; [destruct (dec k' x); [congruence|reflexivity]|].
  destruct (dec k' x); [reflexivity|apply IH; exact H].
Qed.

Lemma tset_values : forall (d : list (K * V)) k v e, In e (tset dec d k v) -> snd e = v \/ In e d.
Proof.
  induction d as [|[x b] d IH]; intros k v e H; cbn [tset] in H.
  - destruct H as [<-|[]]. left. reflexivity.
  - destruct (dec k x).
    + destruct H as [<-|H]; [left; reflexivity|right; right; exact H].
    + destruct H as [<-|H]; [right; left; reflexivity|]. destruct (IH _ _ _ H); [left|right; right]; assumption.
Qed.

(** A new key goes to the end. *)
Lemma tset_new : forall (d : list (K * V)) k v, ~ In k (map fst d) -> tset dec d k v = d ++ [(k, v)].
Proof.
  induction d as [|[x b] d IH]; intros k v H; cbn [tset app]; [reflexivity|]. cbn [map fst In] in H.
  destruct (dec k x) as [->|E]; [elim H; left; reflexivity|]. rewrite IH; [reflexivity|tauto].
Qed.
End Table.

Lemma reached_app : forall a b, reached (a ++ b) = psteps (reached a) b.
Proof. intros a b. unfold reached, psteps. apply fold_left_app. Qed.

Lemma psteps_cons : forall s o l, psteps s (o :: l) = psteps (fst (pstep s o)) l.
Proof. reflexivity. Qed.

(** ** Tags *)

Lemma tag_step : forall s o z, ~ for_tag z o -> tget Z.eq_dec (p_tags (fst (pstep s o))) z = tget Z.eq_dec (p_tags s) z.
Proof.
  intros s o z H. destruct o as [z' c|a c|l c|r]; cbn [pstep].
  - destruct (issub c _) eqn:E; [|reflexivity]. cbn [fst p_tags]. apply tget_other. intros ->. apply H. exists c. split; [reflexivity|apply issub_iff; exact E].
  - destruct (issub c _); reflexivity.
  - destruct (issub c _); [|reflexivity]. destruct (rc_loop _ _ _). reflexivity.
  - reflexivity.
Qed.

Lemma tag_steps : forall l s z, Forall (fun o => ~ for_tag z o) l -> tget Z.eq_dec (p_tags (psteps s l)) z = tget Z.eq_dec (p_tags s) z.
Proof.
  induction l as [|o l IH]; intros s z H; [reflexivity|]. inversion H; subst. rewrite psteps_cons, IH by assumption. apply tag_step. assumption.
Qed.

Lemma tag_found : forall before z c after, subclass c (PLib LMessage) -> Forall (fun o => ~ for_tag z o) after ->
  tget Z.eq_dec (p_tags (reached (before ++ RecordTag z c :: after))) z = Some c.
Proof.
  intros before z c after HC HA. rewrite reached_app, psteps_cons, (tag_steps _ _ _ HA). cbn [pstep].
  rewrite (proj2 (issub_iff _ _) HC). cbn [fst p_tags]. apply tget_same.
Qed.

(** ** Key types *)

Definition labels (a : aclass) : list kkey := [KkId (ident a); KkName (name_of a); KkClass a].

Lemma kty_step : forall s o a k, In k (labels a) -> ~ for_type a o -> tget kkey_dec (p_ktys (fst (pstep s o))) k = tget kkey_dec (p_ktys s) k.
Proof.
  intros s o a k HK H. destruct o as [z' c|b c|l c|r]; cbn [pstep].
  - destruct (issub c _); reflexivity.
  - destruct (issub c _) eqn:E; [|reflexivity]. cbn [fst p_ktys]. apply issub_iff in E.
    assert (HN : ident b <> ident a /\ name_of b <> name_of a /\ b <> a).
    { split; [|split]; intros Q; apply H; exists b, c; auto. }
    destruct HN as (N1 & N2 & N3). destruct HK as [<-|[<-|[<-|[]]]]; rewrite !tget_other by congruence; reflexivity.
  - destruct (issub c _); [|reflexivity]. destruct (rc_loop _ _ _). reflexivity.
  - reflexivity.
Qed.

Lemma kty_steps : forall l s a k, In k (labels a) -> Forall (fun o => ~ for_type a o) l -> tget kkey_dec (p_ktys (psteps s l)) k = tget kkey_dec (p_ktys s) k.
Proof.
  induction l as [|o l IH]; intros s a k HK H; [reflexivity|]. inversion H; subst. rewrite psteps_cons, (IH _ _ _ HK) by assumption.
  eapply kty_step; eassumption.
Qed.

Lemma kty_set : forall (d : list (kkey * pclass)) a c k, In k (labels a) ->
  tget kkey_dec (tset kkey_dec (tset kkey_dec (tset kkey_dec d (KkId (ident a)) c) (KkName (name_of a)) c) (KkClass a) c) k = Some c.
Proof.
  intros d a c k HK. destruct HK as [<-|[<-|[<-|[]]]].
  - rewrite !(tget_other kkey_dec _ _ (KkId _)) by discriminate. apply tget_same.
  - rewrite (tget_other kkey_dec _ _ (KkName _)) by discriminate. apply tget_same.
  - apply tget_same.
Qed.

Lemma kty_set_other : forall (d : list (kkey * pclass)) a c k, ~ In k (labels a) ->
  tget kkey_dec (tset kkey_dec (tset kkey_dec (tset kkey_dec d (KkId (ident a)) c) (KkName (name_of a)) c) (KkClass a) c) k = tget kkey_dec d k.
Proof. intros d a c k HK. unfold labels in HK. cbn [In] in HK. rewrite !tget_other by tauto. reflexivity. Qed.

Lemma query_labels : forall a q, type_query a q <-> exists k, kkey_of q = Some k /\ In k (labels a).
Proof.
  intros a [v|b]; cbn [type_query kkey_of].
  - split.
    + intros [H|[->|(c & -> & ->)]].
      * apply keyeq_spec in H. cbn [knorm] in H. rewrite H. eexists. split; [reflexivity|left; reflexivity].
      * eexists. split; [reflexivity|right; left; reflexivity].
      * eexists. split; [reflexivity|right; right; left; reflexivity].
    + intros (k & HK & HI). destruct (knorm v) eqn:E; try discriminate; injection HK as <-; destruct HI as [HI|[HI|[HI|[]]]]; try discriminate.
      * left. apply keyeq_spec. injection HI as ->. exact E.
      * right. left. injection HI as ->. destruct v; cbn [knorm] in E; try discriminate; try exact E. destruct (float_int _); discriminate.
      * right. right. injection HI as ->. exists c. split; [|reflexivity]. destruct v; cbn [knorm] in E; try discriminate; try exact E. destruct (float_int _); discriminate.
  - split.
    + intros ->. eexists. split; [reflexivity|right; right; left; reflexivity].
    + intros (k & HK & HI). injection HK as <-. destruct HI as [HI|[HI|[HI|[]]]]; try discriminate. injection HI as ->. reflexivity.
Qed.

Lemma kty_found : forall before a c after q, subclass c (PLib LCoseKey) -> Forall (fun o => ~ for_type a o) after -> type_query a q ->
  key_class (reached (before ++ RecordKty a c :: after)) q = Some c.
Proof.
  intros before a c after q HC HA HQ. apply query_labels in HQ as (k & HK & HI). unfold key_class. rewrite HK.
  rewrite reached_app, psteps_cons, (kty_steps _ _ _ _ HI HA). cbn [pstep]. rewrite (proj2 (issub_iff _ _) HC). cbn [fst p_ktys]. apply kty_set. exact HI.
Qed.

Lemma kty_others : forall s o q, (forall a c, o = RecordKty a c -> ~ type_query a q) -> key_class (fst (pstep s o)) q = key_class s q.
Proof.
  intros s o q H. unfold key_class. destruct (kkey_of q) as [k|] eqn:EK; [|reflexivity]. destruct o as [z' c|b c|l c|r]; cbn [pstep].
  - destruct (issub c _); reflexivity.
  - destruct (issub c _); [|reflexivity]. cbn [fst p_ktys]. apply kty_set_other. intros HI. apply (H b c eq_refl). apply query_labels. eauto.
  - destruct (issub c _); [|reflexivity]. destruct (rc_loop _ _ _). reflexivity.
  - reflexivity.
Qed.

(** ** Recipients *)

Lemma rc_loop_other : forall l d c a, ~ In (RcAlg a) l -> tget aclass_dec (fst (rc_loop d l c)) a = tget aclass_dec d a.
Proof.
  induction l as [|x l IH]; intros d c a H; [reflexivity|]. cbn [rc_loop]. destruct x as [b| |].
  - rewrite IH by (intros HI; apply H; right; exact HI). apply tget_other. intros ->. apply H. left. reflexivity.
  - apply IH. intros HI. apply H. right. exact HI.
  - reflexivity.
Qed.

Lemma rc_loop_in : forall l d c a, In (RcAlg a) l -> ~ In RcValue l -> tget aclass_dec (fst (rc_loop d l c)) a = Some c.
Proof.
  assert (HK : forall l d c a, tget aclass_dec d a = Some c -> tget aclass_dec (fst (rc_loop d l c)) a = Some c).
  { induction l as [|x l IH]; intros d c a H; [exact H|]. cbn [rc_loop]. destruct x as [b| |].
    - apply IH. destruct (aclass_dec b a) as [->|HN]; [apply tget_same|rewrite tget_other by assumption; exact H].
    - apply IH. exact H.
    - exact H. }
  induction l as [|x l IH]; intros d c a HI HV; [destruct HI|]. cbn [rc_loop]. destruct x as [b| |].
  - destruct HI as [E|HI]; [injection E as ->; apply HK, tget_same|]. apply IH; [exact HI|intros Q; apply HV; right; exact Q].
  - destruct HI as [E|HI]; [discriminate|]. apply IH; [exact HI|intros Q; apply HV; right; exact Q].
  - elim HV. left. reflexivity.
Qed.

Lemma rc_step : forall s o a, ~ for_alg a o -> tget aclass_dec (p_rcpts (fst (pstep s o))) a = tget aclass_dec (p_rcpts s) a.
Proof.
  intros s o a H. destruct o as [z' c|b c|l c|r]; cbn [pstep].
  - destruct (issub c _); reflexivity.
  - destruct (issub c _); reflexivity.
  - destruct (issub c _) eqn:E; [|reflexivity]. apply issub_iff in E.
    pose proof (rc_loop_other l (p_rcpts s) c a) as HR. destruct (rc_loop _ _ _) as [d x]. cbn [fst p_rcpts] in *. apply HR.
    intros HI. apply H. exists l, c. auto.
  - reflexivity.
Qed.

Lemma rc_steps : forall l s a, Forall (fun o => ~ for_alg a o) l -> tget aclass_dec (p_rcpts (psteps s l)) a = tget aclass_dec (p_rcpts s) a.
Proof. induction l as [|o l IH]; intros s a H; [reflexivity|]. inversion H; subst. rewrite psteps_cons, IH by assumption. apply rc_step. assumption. Qed.

Lemma attrs_steps : forall l s, p_attrs (psteps s l) = rsteps (p_attrs s) (attributes l).
Proof.
  induction l as [|o l IH]; intros s; [reflexivity|]. rewrite psteps_cons, IH. destruct o as [z' c|b c|m c|r]; cbn [pstep attributes flat_map app].
  - destruct (issub c _); reflexivity.
  - destruct (issub c _); reflexivity.
  - destruct (issub c _); [|reflexivity]. destruct (rc_loop _ _ _). reflexivity.
  - reflexivity.
Qed.

Lemma attrs_reached : forall l, p_attrs (reached l) = rsteps imported (attributes l).
Proof. intros l. unfold reached. rewrite attrs_steps. unfold plug_import. rewrite attrs_steps. reflexivity. Qed.

Lemma rc_found : forall before l c after a q, subclass c (PLib LRecipient) -> In (RcAlg a) l -> ~ In RcValue l ->
  Forall (fun o => ~ for_alg a o) after ->
  Register.find (rsteps imported (attributes (before ++ RecordRc l c :: after))) FAlg false q = Ok (Some a) ->
  rcpt_class (reached (before ++ RecordRc l c :: after)) q = Ok c.
Proof.
  intros before l c after a q HC HI HV HA HF. unfold rcpt_class. rewrite attrs_reached, HF.
  rewrite reached_app, psteps_cons, (rc_steps _ _ _ HA). cbn [pstep]. rewrite (proj2 (issub_iff _ _) HC).
  pose proof (rc_loop_in l (p_rcpts (reached before)) c a HI HV) as HR. destruct (rc_loop _ _ _) as [d x]. cbn [fst p_rcpts] in *. rewrite HR. reflexivity.
Qed.

Lemma rc_others : forall s o q, (forall a, Register.find (p_attrs s) FAlg false q = Ok (Some a) -> ~ for_alg a o) ->
  (forall r, o <> Attribute r) -> rcpt_class (fst (pstep s o)) q = rcpt_class s q.
Proof.
  intros s o q H HN. unfold rcpt_class.
  assert (HA : p_attrs (fst (pstep s o)) = p_attrs s).
  { destruct o as [z' c|b c|m c|r]; cbn [pstep]; try (destruct (issub c _); [|reflexivity]); try reflexivity; [destruct (rc_loop _ _ _); reflexivity|elim (HN r eq_refl)]. }
  rewrite HA. destruct (Register.find _ _ _ _) as [[a|]|]; try reflexivity. rewrite rc_step by (apply H; reflexivity). reflexivity.
Qed.

(** ** After the import *)

Lemma kkey_lookup : forall v, key_class plug_import (Val v) = option_map (fun c => PLib (LKey c)) (key_type_lookup key_types v).
Proof.
  intros v. unfold key_class, kkey_of, key_types. cbn [flat_map app key_type_lookup]. unfold keyeq. cbn [knorm].
  remember (knorm v) as w eqn:EW. clear EW.
  assert (HT : p_ktys plug_import = map (fun e => (fst e, PLib (LKey (snd e))))
    (flat_map (fun e : Z * bytes * kclass => let '(z, n, c) := e in [(KkId z, c); (KkName n, c); (KkClass (Lib (Cls FKty z)), c)])
      [(2%Z, cls_fullname (Cls FKty 2), KEC2); (1%Z, cls_fullname (Cls FKty 1), KOKP); (3%Z, cls_fullname (Cls FKty 3), KRSA); (4%Z, cls_fullname (Cls FKty 4), KSym)])).
  { vm_compute. reflexivity. }
  rewrite HT. clear HT. cbn [c_id].
  destruct w as [|b|z|x|n| | |b|u|l|l|d|t v0|t v0|c|kc ks ke]; try reflexivity.
  - cbn [flat_map app map fst snd tget]. cbn [veqb].
    destruct (Z.eqb_spec z 4) as [->|N4]; [vm_compute; reflexivity|]. destruct (Z.eqb_spec z 1) as [->|N1]; [vm_compute; reflexivity|].
    destruct (Z.eqb_spec z 2) as [->|N2]; [vm_compute; reflexivity|]. destruct (Z.eqb_spec z 3) as [->|N3]; [vm_compute; reflexivity|].
    repeat (destruct (kkey_dec _ _) as [E|_]; [exfalso; congruence|]). reflexivity.
  - cbn [flat_map app map fst snd tget]. cbn [veqb].
    repeat match goal with |- context [bytes_eqb u ?n] => let E := fresh "E" in destruct (bytes_eqb u n) eqn:E; [apply bytes_eqb_eq in E; subst u; vm_compute; reflexivity|] end.
    repeat (destruct (kkey_dec _ _) as [Q|_]; [exfalso; try discriminate Q; injection Q as ->;
      match goal with H : bytes_eqb ?n ?n = false |- _ => assert (HH : bytes_eqb n n = true) by (apply bytes_eqb_eq; reflexivity); congruence end|]). reflexivity.
  - cbn [flat_map app map fst snd tget].
    repeat match goal with |- context [veqb (VClass c) ?n] => let E := fresh "E" in destruct (veqb (VClass c) n) eqn:E;
      [apply veqb_eq in E; first [discriminate E|injection E as ->; vm_compute; reflexivity]|] end.
    repeat (destruct (kkey_dec _ _) as [Q|_]; [exfalso; first [discriminate Q|injection Q as ->];
      match goal with H : veqb (VClass ?n) (VClass ?n) = false |- _ => vm_compute in H; discriminate H end|]). reflexivity.
Qed.

Lemma find_some_false : forall s f q, Register.find s f false q <> Ok None.
Proof. intros s f q. rewrite find_key. destruct (key_of q) as [k|]; [destruct (rget (s f) k)|]; discriminate. Qed.

Lemma rget_In : forall d k a, rget d k = Some a -> exists k', In (k', a) d.
Proof.
  induction d as [|[k' b] d IH]; intros k a H; [discriminate|]. cbn [rget] in H. destruct (akey_eqb k k').
  - injection H as <-. exists k'. left. reflexivity.
  - destruct (IH _ _ H) as [k2 HI]. exists k2. right. exact HI.
Qed.

Lemma find_lib : forall f allow q a, Register.find imported f allow q = Ok (Some a) -> exists c, a = Lib c.
Proof.
  intros f allow q a H. rewrite find_key in H. destruct (key_of q) as [k|]; [|destruct allow; discriminate].
  destruct (rget (imported f) k) as [b|] eqn:E; [|destruct allow; discriminate]. injection H as <-. apply rget_In in E as [k' HI].
  pose proof (imported_lib f) as HL. rewrite forallb_forall in HL. specialize (HL _ HI). cbn [snd] in HL. destruct b as [c|]; [eauto|discriminate].
Qed.

Lemma rcpts_imported : forallb (fun e => match tget aclass_dec (p_rcpts plug_import) (Lib (fst e)), rcpt_class_of (VClass (fst e)) with
    | Some (PLib (LRcpt r)), Ok r' => if rclass_dec r r' then true else false
    | None, Err KeyError => true
    | _, _ => false
    end) (registered FAlg) = true.
Proof. vm_compute. reflexivity. Qed.

Lemma rcpt_lookup : forall c n, In (c, n) (registered FAlg) ->
  match tget aclass_dec (p_rcpts plug_import) (Lib c) with Some c => Ok c | None => Err KeyError end =
  match rcpt_class_of (VClass c) with Ok r => Ok (PLib (LRcpt r)) | Err e => Err e end.
Proof.
  intros c n HI. pose proof rcpts_imported as H. rewrite forallb_forall in H. specialize (H _ HI). cbn [fst] in H.
  destruct (tget _ _ _) as [[[| | | | | | | |r| |]| |]|], (rcpt_class_of _) as [r'|e]; try discriminate.
  - destruct (rclass_dec r r') as [->|]; [reflexivity|discriminate].
  - destruct e; try discriminate. reflexivity.
Qed.

(** ** Mixing *)

Lemma nodup_classes : forall rs, length (nodup pclass_dec (map (fun r => PLib (LRcpt (r_class r))) rs)) = n_classes rs.
Proof.
  intros rs. unfold n_classes. rewrite <- (map_length (fun rc => PLib (LRcpt rc)) (filter _ _)). apply Permutation_length.
  apply NoDup_Permutation.
  - apply NoDup_nodup.
  - apply Injective_map_NoDup; [intros x y H; injection H as H; exact H|]. apply NoDup_filter. repeat constructor; cbn [In]; intuition discriminate.
  - intros x. rewrite nodup_In, !in_map_iff. split.
    + intros (r & <- & HI). exists (r_class r). split; [reflexivity|]. apply filter_In. split; [destruct (r_class r); cbn [In]; tauto|].
      unfold has_class. apply existsb_exists. exists r. split; [exact HI|destruct (r_class r); reflexivity].
    + intros (rc & <- & HI). apply filter_In in HI as [_ HI]. unfold has_class in HI. apply existsb_exists in HI as (r & HI & HE).
      exists r. split; [|exact HI]. f_equal. f_equal. destruct rc, (r_class r); try reflexivity; discriminate HE.
Qed.

Lemma has_lib : forall rc rs, (if in_dec pclass_dec (PLib (LRcpt rc)) (nodup pclass_dec (map (fun r => PLib (LRcpt (r_class r))) rs)) then true else false) =
  has_class rc rs.
Proof.
  intros rc rs. destruct (in_dec _ _ _) as [HI|HN].
  - apply nodup_In, in_map_iff in HI as (r & E & HI). injection E as E. symmetry. unfold has_class. apply existsb_exists. exists r. split; [exact HI|].
    rewrite E. destruct rc; reflexivity.
  - destruct (has_class rc rs) eqn:E; [|reflexivity]. elim HN. unfold has_class in E. apply existsb_exists in E as (r & HI & HE).
    apply nodup_In, in_map_iff. exists r. split; [|exact HI]. f_equal. f_equal. destruct rc, (r_class r); try reflexivity; discriminate HE.
Qed.

Lemma verify_lib : forall rs, verify_classes (map (fun r => PLib (LRcpt (r_class r))) rs) = verify_recipients rs.
Proof. intros rs. unfold verify_classes, verify_recipients. cbv zeta. rewrite !has_lib, nodup_classes, map_length. reflexivity. Qed.
