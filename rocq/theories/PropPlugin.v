(** C116: message, key and recipient classes registered by a program. *)
From Coq Require Import NArith ZArith Bool String Permutation.
From Coq Require Import Init.Byte List.
From Verif Require Import Bytes Value ValueProofs Registry RegistryProofs Crypto Keys Recipients SpecRegistry Register SpecRegister RegisterProofs PropRegister
  Plugin SpecPlugin PluginProofs.
Import ListNotations.

(** ** Message classes *)

(** A message class registered for a tag is the one that decodes messages with this tag, until another one is registered
    for it: on a class that the decoded message belongs to, it is returned, on another TypeError is raised. *)
Theorem C116_tag : forall before z c after cls build, subclass c (PLib LMessage) -> Forall (fun o => ~ for_tag z o) after ->
  let s := reached (before ++ RecordTag z c :: after) in
  (forall o, build c = Ok o -> subclass o cls -> decode_as s cls build z = Ok o) /\
  (forall o, build c = Ok o -> ~ subclass o cls -> decode_as s cls build z = Err TypeError) /\
  (forall e, build c = Err e -> decode_as s cls build z = Err e).
Proof.
  intros before z c after cls build HC HA s. unfold decode_as, s. rewrite (tag_found before z c after HC HA). split; [|split].
  - intros o -> HO. rewrite (proj2 (issub_iff _ _) HO). reflexivity.
  - intros o -> HO. rewrite (issub_not _ _ HO). reflexivity.
  - intros e ->. reflexivity.
Qed.
Print Assumptions C116_tag.

(** No registration changes how messages with other tags are decoded. *)
Theorem C116_other_tags : forall before o z cls build, ~ for_tag z o ->
  decode_as (reached (before ++ [o])) cls build z = decode_as (reached before) cls build z.
Proof. intros before o z cls build H. unfold decode_as. rewrite reached_app. cbn [psteps fold_left]. rewrite (tag_step _ _ _ H). reflexivity. Qed.
Print Assumptions C116_other_tags.

(** Whatever was registered, decode on a class returns only messages of that class (C22). *)
Theorem C116_expected : forall before cls build z o, decode_as (reached before) cls build z = Ok o -> subclass o cls.
Proof.
  intros before cls build z o H. unfold decode_as in H. destruct (tget _ _ _); [|discriminate]. destruct (build p) as [o'|]; [|discriminate].
  destruct (issub o' cls) eqn:E; [|discriminate]. injection H as <-. apply issub_iff. exact E.
Qed.
Print Assumptions C116_expected.

(** A class of another kind is refused, and nothing is changed. *)
Theorem C116_wrong_kind : forall s c, 
  (forall z, ~ subclass c (PLib LMessage) -> pstep s (RecordTag z c) = (s, Some ValueError)) /\
  (forall a, ~ subclass c (PLib LCoseKey) -> pstep s (RecordKty a c) = (s, Some ValueError)) /\
  (forall l, ~ subclass c (PLib LRecipient) -> pstep s (RecordRc l c) = (s, Some ValueError)).
Proof. intros s c. split; [|split]; intros ? H; cbn [pstep]; rewrite (issub_not _ _ H); reflexivity. Qed.
Print Assumptions C116_wrong_kind.

(** ** Key classes *)

(** A key class registered for a key type is the one used for maps that name this type by its identifier, its name or its
    class, until one is registered for a type with the same identifier or name. *)
Theorem C116_key_type_partial : forall before a c after q, subclass c (PLib LCoseKey) -> Forall (fun o => ~ for_type a o) after -> type_query a q ->
  key_class (reached (before ++ RecordKty a c :: after)) q = Some c.
Proof. exact kty_found. Qed.
Print Assumptions C116_key_type_partial.

Theorem C116_other_key_types : forall before o q, (forall a c, o = RecordKty a c -> ~ type_query a q) ->
  key_class (reached (before ++ [o])) q = key_class (reached before) q.
Proof. intros before o q H. rewrite reached_app. cbn [psteps fold_left]. apply kty_others. exact H. Qed.
Print Assumptions C116_other_key_types.

(** Importing a key of the [cryptography] package uses a registered class that supports it, and fails only if none does. *)
Theorem C116_import_key_partial : forall s supports,
  (forall c, import_class s supports = Ok c -> supports c = true /\ exists k, In (k, c) (p_ktys s)) /\
  (forall e, import_class s supports = Err e -> forall k c, In (k, c) (p_ktys s) -> supports c = false).
Proof.
  intros s supports. unfold import_class. split.
  - intros c H. destruct (List.find _ _) as [[k c']|] eqn:E; [|discriminate]. injection H as <-. apply find_some in E as [HI HS]. eauto.
  - intros e H k c HI. destruct (List.find _ _) eqn:E; [discriminate|]. exact (find_none _ _ E _ HI).
Qed.
Print Assumptions C116_import_key_partial.

(** A class registered for one of the library's key types also takes over the import of keys that only the library's class
    of this type supported. *)
Theorem C116_import_replaced : forall k c supports, subclass c (PLib LCoseKey) -> supports c = true ->
  (forall k', k' <> k -> supports (PLib (LKey k')) = false) ->
  import_class (reached [RecordKty (Lib (Cls FKty (match k with KSym => 4 | KOKP => 1 | KEC2 => 2 | KRSA => 3 end))) c]) supports = Ok c.
Proof.
  intros k c supports HC HS HN. unfold import_class.
  assert (HT : map snd (p_ktys (reached [RecordKty (Lib (Cls FKty (match k with KSym => 4 | KOKP => 1 | KEC2 => 2 | KRSA => 3 end))) c])) =
    flat_map (fun k' => if kclass_dec k' k then [c; c; c] else repeat (PLib (LKey k')) 3) [KEC2; KOKP; KRSA; KSym]).
  { unfold reached. cbn [psteps fold_left pstep]. rewrite (proj2 (issub_iff _ _) HC). destruct k; vm_compute; reflexivity. }
  assert (HF : forall l, List.find (fun e : kkey * pclass => supports (snd e)) l = None -> List.find supports (map snd l) = None).
  { induction l as [|x l IH]; intros H; [reflexivity|]. cbn [map List.find] in *. destruct (supports (snd x)); [discriminate|auto]. }
  destruct (List.find _ _) as [[x y]|] eqn:E.
  - apply find_some in E as [HI HY]. cbn [snd] in *. f_equal. apply (in_map snd) in HI. rewrite HT in HI. cbn [snd] in HI.
    apply in_flat_map in HI as (k' & _ & HI). destruct (kclass_dec k' k) as [->|Hk].
    + cbn [In] in HI. intuition congruence.
    + cbn [repeat In] in HI. pose proof (HN k' Hk) as HH. destruct HI as [<-|[<-|[<-|[]]]]; congruence.
  - apply HF in E. rewrite HT in E. exfalso. pose proof (find_none _ _ E c) as Q. rewrite HS in Q. discriminate Q.
    apply in_flat_map. exists k. split; [destruct k; cbn [In]; tauto|]. destruct (kclass_dec k k); [left; reflexivity|contradiction].
Qed.
Print Assumptions C116_import_replaced.

(** ** Recipient classes *)

(** A recipient class registered for an algorithm is the one used for received recipients whose algorithm header names this
    algorithm, until another one is registered for it. *)
Theorem C116_recipient_partial : forall before l c after a q, subclass c (PLib LRecipient) -> In (RcAlg a) l -> ~ In RcValue l ->
  Forall (fun o => ~ for_alg a o) after ->
  Register.find (rsteps imported (attributes (before ++ RecordRc l c :: after))) FAlg false q = Ok (Some a) ->
  rcpt_class (reached (before ++ RecordRc l c :: after)) q = Ok c.
Proof. exact rc_found. Qed.
Print Assumptions C116_recipient_partial.

Theorem C116_other_recipients : forall before o q,
  (forall a, Register.find (rsteps imported (attributes before)) FAlg false q = Ok (Some a) -> ~ for_alg a o) -> (forall r, o <> Attribute r) ->
  rcpt_class (reached (before ++ [o])) q = rcpt_class (reached before) q.
Proof.
  intros before o q H HN. rewrite reached_app. cbn [psteps fold_left]. apply rc_others; [|exact HN]. rewrite attrs_reached. exact H.
Qed.
Print Assumptions C116_other_recipients.

(** ** A program that registers nothing sees what the other properties describe. *)
Theorem C116_import_tags : forall cls build z,
  let registered := [(16, LEnc0); (17, LMac0); (18, LSign1); (96, LEnc); (97, LMac); (98, LSign)]%Z in
  (forall p, In (z, p) registered -> forall o, build (PLib p) = Ok o -> subclass o cls -> decode_as plug_import cls build z = Ok o) /\
  (~ In z (map fst registered) -> decode_as plug_import cls build z = Err KeyError).
Proof.
  intros cls build z. cbv zeta. split.
  - intros p HI o HB HO. unfold decode_as.
    assert (HT : tget Z.eq_dec (p_tags plug_import) z = Some (PLib p)).
    { cbn [In] in HI. repeat (destruct HI as [HI|HI]; [injection HI as <- <-; vm_compute; reflexivity|]). destruct HI. }
    rewrite HT, HB, (proj2 (issub_iff _ _) HO). reflexivity.
  - intros HN. unfold decode_as. replace (tget Z.eq_dec (p_tags plug_import) z) with (@None pclass); [reflexivity|].
    replace (p_tags plug_import) with (map (fun e => (fst e, PLib (snd e))) [(16, LEnc0); (96, LEnc); (17, LMac0); (97, LMac); (18, LSign1); (98, LSign)]%Z)
      by (vm_compute; reflexivity).
    cbn [map fst snd tget In] in *. repeat (destruct (Z.eq_dec _ _) as [->|_]; [exfalso; tauto|]). reflexivity.
Qed.
Print Assumptions C116_import_tags.

Theorem C116_import_keys : forall v, key_class plug_import (Val v) = option_map (fun c => PLib (LKey c)) (key_type_lookup key_types v).
Proof. exact kkey_lookup. Qed.
Print Assumptions C116_import_keys.

Theorem C116_import_recipients : forall v, (forall l, v <> VList l) -> rcpt_class plug_import (Val v) =
  match from_id FAlg false v with
  | Err e => Err e
  | Ok c => match rcpt_class_of c with Ok r => Ok (PLib (LRcpt r)) | Err e => Err e end
  end.
Proof.
  intros v HL. unfold rcpt_class. change (p_attrs plug_import) with (p_attrs (reached [])). rewrite attrs_reached. cbn [attributes flat_map rsteps fold_left].
  pose proof (C97_import_partial FAlg false v HL) as HF. destruct (from_id FAlg false v) as [w|e] eqn:EW.
  - destruct (from_id_cases _ _ _ _ EW) as [(c & n & HI & HS & ->)|[(E & _)|(l & l' & E & _)]]; [|discriminate|elim (HL l E)].
    destruct (Register.find imported FAlg false (Val v)) as [[[c'|i z m]|]|] eqn:ER; try discriminate.
    + injection HF as <-. exact (rcpt_lookup c n HI).
    + elim (find_some_false _ _ _ ER).
  - destruct (Register.find imported FAlg false (Val v)) as [[[c'|i z m]|]|] eqn:ER; try discriminate.
    + apply find_lib in ER as [c ER]. discriminate ER.
    + injection HF as <-. reflexivity.
Qed.
Print Assumptions C116_import_recipients.

Theorem C116_import_mixing : forall rs, verify_classes (map (fun r => PLib (LRcpt (r_class r))) rs) = verify_recipients rs.
Proof. exact verify_lib. Qed.
Print Assumptions C116_import_mixing.

(** ** Where registering a class is not enough *)

(** A key class registered for a program's own class of one of the library's key types (same identifier, another class) is used
    for maps that name the type by number, but not for maps that name it by the library's class. *)
Theorem C116_type_class_refuted : forall k a c, ident a = match k with KSym => 4 | KOKP => 1 | KEC2 => 2 | KRSA => 3 end%Z ->
  a <> Lib (Cls FKty (ident a)) -> subclass c (PLib LCoseKey) ->
  let s := reached [RecordKty a c] in
  key_class s (Val (VInt (ident a))) = Some c /\ key_class s (Val (VClass (Cls FKty (ident a)))) = Some (PLib (LKey k)).
Proof.
  intros k a c HI HN HC s. split.
  - apply (C116_key_type_partial [] a c [] (Val (VInt (ident a))) HC); [constructor|]. left. apply keyeq_refl.
  - unfold s. change [RecordKty a c] with ([] ++ [RecordKty a c]). rewrite C116_other_key_types.
    + change (reached []) with plug_import. rewrite kkey_lookup, HI. destruct k; vm_compute; reflexivity.
    + intros a' c' E [H|[H|(x & E1 & E2)]]; [discriminate H|discriminate H|]. injection E as -> ->. injection E1 as <-. exact (HN E2).
Qed.
Print Assumptions C116_type_class_refuted.

(** A key class for a new key type is never used to import a key that one of the library's classes supports. *)
Theorem C116_import_refuted : forall a c k supports, ~ In (ident a) [1; 2; 3; 4]%Z ->
  ~ In (name_of a) (map (fun z => cls_fullname (Cls FKty z)) [1; 2; 3; 4]%Z) -> supports (PLib (LKey k)) = true ->
  exists k', import_class (reached [RecordKty a c]) supports = Ok (PLib (LKey k')).
Proof.
  intros a c k supports HI HN HS. unfold import_class.
  assert (HP : exists l, p_ktys (reached [RecordKty a c]) = p_ktys plug_import ++ l).
  { unfold reached. cbn [psteps fold_left pstep]. destruct (issub c _); [|exists []; rewrite app_nil_r; reflexivity]. cbn [fst p_ktys].
    assert (HT : map fst (p_ktys plug_import) = flat_map (fun z => [KkId z; KkName (cls_fullname (Cls FKty z)); KkClass (Lib (Cls FKty z))]) [2; 1; 3; 4]%Z)
      by (vm_compute; reflexivity).
    assert (H1 : ~ In (KkId (ident a)) (map fst (p_ktys plug_import))).
    { rewrite HT. intros Q. apply in_flat_map in Q as (z & HZ & [Q|[Q|[Q|[]]]]); try discriminate. injection Q as Q. subst z. apply HI. cbn [In] in *. tauto. }
    assert (H2 : ~ In (KkName (name_of a)) (map fst (p_ktys plug_import))).
    { rewrite HT. intros Q. apply in_flat_map in Q as (z & HZ & [Q|[Q|[Q|[]]]]); try discriminate. injection Q as Q. apply HN. rewrite <- Q. apply (in_map (fun z => cls_fullname (Cls FKty z))). cbn [In] in *. tauto. }
    assert (H3 : ~ In (KkClass a) (map fst (p_ktys plug_import))).
    { rewrite HT. intros Q. apply in_flat_map in Q as (z & HZ & [Q|[Q|[Q|[]]]]); try discriminate. injection Q as Q. subst a. apply HI. cbn [ident c_id In] in *. tauto. }
    rewrite (tset_new kkey_dec (p_ktys plug_import)) by exact H1. rewrite (tset_new kkey_dec _ (KkName (name_of a))) by (rewrite map_app, in_app_iff; cbn [map fst In]; intuition discriminate).
    rewrite (tset_new kkey_dec _ (KkClass a)) by (rewrite !map_app, !in_app_iff; cbn [map fst In]; intuition discriminate). rewrite <- !app_assoc. eexists. reflexivity. }
  destruct HP as [l ->].
  assert (HL : forall e, In e (p_ktys plug_import) -> exists k', snd e = PLib (LKey k')).
  { intros e HE. assert (Q : In (snd e) (map snd (p_ktys plug_import))) by (apply in_map; exact HE).
    replace (map snd (p_ktys plug_import)) with (flat_map (fun k' => repeat (PLib (LKey k')) 3) [KEC2; KOKP; KRSA; KSym]) in Q by (vm_compute; reflexivity).
    apply in_flat_map in Q as (k' & _ & Q). exists k'. apply repeat_spec in Q. exact Q. }
  assert (HE : exists x, In x (p_ktys plug_import) /\ supports (snd x) = true).
  { exists (KkId (match k with KSym => 4 | KOKP => 1 | KEC2 => 2 | KRSA => 3 end), PLib (LKey k)). split; [|exact HS]. destruct k; vm_compute; tauto. }
  revert HL HE. generalize (p_ktys plug_import) as d. induction d as [|e d IH]; intros HL (x & HX & HXS); [destruct HX|]. cbn [app List.find].
  destruct (supports (snd e)) eqn:ES; [destruct (HL e (or_introl eq_refl)) as [k' Q]; exists k'; rewrite Q; reflexivity|].
  apply IH; [intros e' HI'; apply HL; right; exact HI'|]. destruct HX as [->|HX]; [congruence|]. eauto.
Qed.
Print Assumptions C116_import_refuted.

(** Registering another class for one of the library's recipient algorithms (same identifier) leaves received recipients with
    this algorithm without a recipient class. *)
Theorem C116_algorithm_replaced_refuted : forall r z i n, In (z, r) rcpt_classes ->
  let own := User i z n in
  rcpt_class plug_import (Val (VInt z)) = Ok (PLib (LRcpt r)) /\
  rcpt_class (reached [Attribute (Register FAlg own)]) (Val (VInt z)) = Err KeyError.
Proof.
  intros r z i n HI own. split.
  - cbn [rcpt_classes In] in HI. repeat (destruct HI as [HI|HI]; [injection HI as <- <-; vm_compute; reflexivity|]). destruct HI.
  - unfold rcpt_class. rewrite attrs_reached. change (attributes [Attribute (Register FAlg own)]) with ([] ++ Register FAlg own :: []).
    rewrite (C97_found_partial [] FAlg own []); [|constructor|left; reflexivity].
    change (p_rcpts (reached [Attribute (Register FAlg own)])) with (p_rcpts plug_import).
    replace (tget aclass_dec (p_rcpts plug_import) own) with (@None pclass); [reflexivity|].
    assert (HL : Forall (fun e => exists c, fst e = Lib c) (p_rcpts plug_import)).
    { vm_compute. repeat (constructor; [eexists; reflexivity|]). constructor. }
    revert HL. generalize (p_rcpts plug_import) as d. induction d as [|[a c] d IH]; intros HL; [reflexivity|]. inversion HL as [|? ? [c' HC'] HL']; subst.
    cbn [tget]. cbn [fst] in HC'. subst a. destruct (aclass_dec own (Lib c')) as [E|_]; [discriminate E|]. apply IH. exact HL'.
Qed.
Print Assumptions C116_algorithm_replaced_refuted.

(** A list with something that is no class raises TypeError, but the algorithms before it have got the new class. *)
Theorem C116_half_registered_refuted : forall s l1 l2 c a, subclass c (PLib LRecipient) -> In (RcAlg a) l1 -> ~ In RcValue l1 ->
  snd (pstep s (RecordRc (l1 ++ RcValue :: l2) c)) = Some TypeError /\
  tget aclass_dec (p_rcpts (fst (pstep s (RecordRc (l1 ++ RcValue :: l2) c)))) a = Some c.
Proof.
  intros s l1 l2 c a HC HI HV. cbn [pstep]. rewrite (proj2 (issub_iff _ _) HC).
  assert (HR : forall l d, ~ In RcValue l -> rc_loop d (l ++ RcValue :: l2) c = (fst (rc_loop d l c), Some TypeError)).
  { induction l as [|x l IH]; intros d H; [reflexivity|]. cbn [app rc_loop]. destruct x; [| |elim H; left; reflexivity]; apply IH; intros Q; apply H; right; exact Q. }
  rewrite (HR _ _ HV). cbn [fst snd p_rcpts]. split; [reflexivity|]. apply rc_loop_in; assumption.
Qed.
Print Assumptions C116_half_registered_refuted.

(** The rules on mixing recipients (C48) hold for the library's classes only: a recipient of a program's class derived from
    DirectEncryption or DirectKeyAgreement is accepted next to any recipients of other classes. *)
Theorem C116_mixing_refuted : forall i b l, ~ In (PLib (LRcpt RDirect)) l -> ~ In (PLib (LRcpt RAgree)) l ->
  verify_classes (PUser i b :: l) = Ok tt.
Proof.
  intros i b l H1 H2. unfold verify_classes. cbv zeta.
  destruct (in_dec _ (PLib (LRcpt RDirect)) _) as [H|_]; [exfalso; apply nodup_In in H as [H|H]; [discriminate|contradiction]|].
  destruct (in_dec _ (PLib (LRcpt RAgree)) _) as [H|_]; [exfalso; apply nodup_In in H as [H|H]; [discriminate|contradiction]|]. reflexivity.
Qed.
Print Assumptions C116_mixing_refuted.

(** ** Instances: a program's Sign1 class, EC2 key class and key wrap recipient class. *)
Definition my_sign1 : pclass := PUser 1 (PLib LSign1).
Definition my_key : pclass := PUser 2 (PLib (LKey KEC2)).
Definition my_wrap : pclass := PUser 3 (PLib (LRcpt RKeyWrap)).
Definition my_alg : aclass := User 4 (-70000) (bs "MY-KW").
Definition program : list pop :=
  [RecordTag 18 my_sign1; RecordKty (Lib (Cls FKty 2)) my_key; Attribute (Register FAlg my_alg); RecordRc [RcAlg my_alg; RcClass; RcAlg (Lib (Cls FAlg (-3)))] my_wrap].

Example program_classes : subclass my_sign1 (PLib LMessage) /\ subclass my_sign1 (PLib LSign1) /\ ~ subclass my_sign1 (PLib LMac0) /\
  subclass my_key (PLib LCoseKey) /\ subclass my_wrap (PLib LRecipient).
Proof.
  split; [apply issub_iff; reflexivity|]. split; [apply issub_iff; reflexivity|]. split; [intros H; apply issub_iff in H; discriminate|].
  split; apply issub_iff; reflexivity.
Qed.

Example program_lookups :
  decode_as (reached program) (PLib LSign1) (fun c => Ok c) 18 = Ok my_sign1 /\
  decode_as (reached program) (PLib LMac0) (fun c => Ok c) 18 = Err TypeError /\
  decode_as (reached program) (PLib LMessage) (fun c => Ok c) 17 = Ok (PLib LMac0) /\
  key_class (reached program) (Val (VStr (bs "EC2"))) = Some my_key /\
  import_class (reached program) (fun c => issub c (PLib (LKey KEC2))) = Ok my_key /\
  rcpt_class (reached program) (Val (VStr (bs "my-kw"))) = Ok my_wrap /\
  rcpt_class (reached program) (Val (VInt (-3))) = Ok my_wrap /\
  rcpt_class (reached program) (Val (VInt (-4))) = Ok (PLib (LRcpt RKeyWrap)).
Proof. vm_compute. repeat split; reflexivity. Qed.

(** The hypotheses of the theorems hold of it. *)
Example program_unreplaced : Forall (fun o => ~ for_tag 18 o) (tl program) /\
  Forall (fun o => ~ for_type (Lib (Cls FKty 2)) o) (tl (tl program)) /\
  Register.find (rsteps imported (attributes program)) FAlg false (Val (VStr (bs "My-Kw"))) = Ok (Some my_alg).
Proof.
  split; [|split].
  - repeat constructor; intros (c & E & _); discriminate E.
  - repeat constructor; intros (b & c & E & _); discriminate E.
  - vm_compute. reflexivity.
Qed.

Example mixing_example : verify_classes [PUser 5 (PLib (LRcpt RDirect)); PLib (LRcpt RKeyWrap)] = Ok tt /\
  verify_classes [PLib (LRcpt RDirect); PLib (LRcpt RKeyWrap)] = Err CoseException.
Proof. vm_compute. split; reflexivity. Qed.
