(** Proofs about registration at run time. *)
From Coq Require Import NArith ZArith Bool Lia.
From Coq Require Import Init.Byte List.
From Verif Require Import Bytes BytesProofs Value ValueProofs Registry RegistryProofs SpecRegistry Register SpecRegister.
Import ListNotations.

Lemma akey_eq : forall a b, akey_eqb a b = true <-> a = b.
Proof.
  intros [x|x] [y|y]; cbn [akey_eqb]; try (split; discriminate).
  - rewrite Z.eqb_eq. split; congruence.
  - rewrite bytes_eqb_eq. split; congruence.
Qed.

Lemma akey_refl : forall a, akey_eqb a a = true.
Proof. intros a. apply akey_eq. reflexivity. Qed.

Lemma akey_neq : forall a b, a <> b -> akey_eqb a b = false.
Proof. intros a b H. destruct (akey_eqb a b) eqn:E; [apply akey_eq in E; contradiction|reflexivity]. Qed.

Lemma rget_same : forall d k a, rget (rset d k a) k = Some a.
Proof.
  induction d as [|[k' a'] d IH]; intros k a; cbn [rset rget]; [rewrite akey_refl; reflexivity|].
  destruct (akey_eqb k k') eqn:E; cbn [rget]; rewrite E; [reflexivity|apply IH].
Qed.

Lemma rget_other : forall d k k' a, k <> k' -> rget (rset d k a) k' = rget d k'.
Proof.
  induction d as [|[x b] d IH]; intros k k' a H; cbn [rset rget]; [rewrite akey_neq by congruence; reflexivity|].
  destruct (akey_eqb k x) eqn:E; cbn [rget]; [|destruct (akey_eqb k' x); [reflexivity|apply IH; exact H]].
  apply akey_eq in E. subst x. rewrite akey_neq by congruence. reflexivity.
Qed.

Lemma rupd_same : forall s f d, rupd s f d f = d.
Proof. intros s f d. unfold rupd. destruct (fam_eq_dec f f); [reflexivity|contradiction]. Qed.
Lemma rupd_other : forall s f d g, g <> f -> rupd s f d g = s g.
Proof. intros s f d g H. unfold rupd. destruct (fam_eq_dec g f); [contradiction|reflexivity]. Qed.

Definition key_of (q : query) : option akey :=
  match q with
  | Val (VInt z) => Some (KId z)
  | Val (VBool b) => Some (KId (if b then 1 else 0))
  | Val (VStr u) => Some (KName (upper u))
  | Val (VClass c) => Some (KId (c_id c))
  | Class a => Some (KId (ident a))
  | Val _ => None
  end.

Lemma find_key : forall s f allow q, find s f allow q =
  match key_of q with
  | Some k => match rget (s f) k with Some a => Ok (Some a) | None => if allow then Ok None else Err CoseException end
  | None => if allow then Ok None else Err CoseException
  end.
Proof. intros s f allow [v|a]; [destruct v|]; reflexivity. Qed.

Lemma by_id_key : forall z q, by_id z q <-> key_of q = Some (KId z).
Proof. intros z [v|a]; [destruct v|]; cbn [by_id key_of]; split; try contradiction; try congruence; intros H; injection H as H; exact H. Qed.
Lemma by_name_key : forall n q, by_name n q <-> key_of q = Some (KName (upper n)).
Proof. intros z [v|a]; [destruct v|]; cbn [by_name key_of]; split; try contradiction; try congruence. Qed.

Lemma kept : forall ops s f k z n, (k = KId z \/ k = KName (upper n)) -> Forall (fun o => ~ replaces f z n o) ops ->
  rget (rsteps s ops f) k = rget (s f) k.
Proof.
  unfold rsteps. induction ops as [|o ops IH]; intros s f k z n HK HF; [reflexivity|]. inversion HF as [|? ? HO HR]; subst. cbn [fold_left].
  rewrite (IH _ f k z n HK HR). destruct o as [g b|g]; cbn [rstep replaces] in *.
  - destruct (fam_eq_dec f g) as [<-|HN]; [|rewrite rupd_other by exact HN; reflexivity]. rewrite rupd_same.
    destruct HK as [->| ->]; rewrite !rget_other; try reflexivity; intros E; try discriminate E; injection E as E; apply HO; split; auto.
  - rewrite rupd_other by congruence. reflexivity.
Qed.

Lemma registered_found : forall before f a after allow q, Forall (fun o => ~ replaces f (ident a) (name_of a) o) after ->
  by_id (ident a) q \/ by_name (name_of a) q ->
  find (rsteps imported (before ++ Register f a :: after)) f allow q = Ok (Some a).
Proof.
  intros before f a after allow q HF HQ. unfold rsteps. rewrite fold_left_app. cbn [fold_left]. fold (rsteps imported before).
  set (s := rsteps imported before). fold (rsteps (rstep s (Register f a)) after). rewrite find_key.
  assert (HK : exists k, key_of q = Some k /\ (k = KId (ident a) \/ k = KName (upper (name_of a)))).
  { destruct HQ as [H|H]; [apply by_id_key in H|apply by_name_key in H]; eexists; split; eauto. }
  destruct HK as (k & -> & HK). rewrite (kept after _ f k _ _ HK HF). cbn [rstep]. rewrite rupd_same.
  destruct HK as [->| ->]; [rewrite rget_other by discriminate|]; rewrite rget_same; reflexivity.
Qed.

Lemma others_kept : forall s f a g allow q, g <> f \/ (~ by_id (ident a) q /\ ~ by_name (name_of a) q) ->
  find (rstep s (Register f a)) g allow q = find s g allow q.
Proof.
  intros s f a g allow q H. rewrite !find_key. destruct (key_of q) as [k|] eqn:EK; [|reflexivity]. cbn [rstep].
  destruct (fam_eq_dec g f) as [->|HN]; [|rewrite rupd_other by exact HN; reflexivity]. destruct H as [H|[H1 H2]]; [contradiction|].
  rewrite rupd_same. rewrite !rget_other; [reflexivity| |].
  - intros <-. apply H1. apply by_id_key. exact EK.
  - intros <-. apply H2. apply by_name_key. exact EK.
Qed.

(** ** The registries after import *)

Definition entry (e : akey * aclass) : pyval * pyval :=
  (match fst e with KId z => VInt z | KName u => VStr u end, match snd e with Lib c => VClass c | User _ z _ => VInt z end).

Lemma imported_entries : forall f, map entry (imported f) = registry f.
Proof. intros []; vm_compute; reflexivity. Qed.

Lemma imported_lib : forall f, forallb (fun e => match snd e with Lib _ => true | User _ _ _ => false end) (imported f) = true.
Proof. intros []; vm_compute; reflexivity. Qed.

Lemma get_entry : forall d k, forallb (fun e => match snd e with Lib _ => true | User _ _ _ => false end) d = true ->
  dget (map entry d) (match k with KId z => VInt z | KName u => VStr u end) =
    match rget d k with Some (Lib c) => Some (VClass c) | Some (User _ z _) => Some (VInt z) | None => None end /\
  forall i z n, rget d k <> Some (User i z n).
Proof.
  induction d as [|[k' a] d IH]; intros k H; [split; [reflexivity|discriminate]|]. cbn [forallb snd] in H. apply andb_true_iff in H as [HA HD].
  cbn [map entry dget rget fst snd]. assert (E : keyeq (match k with KId z => VInt z | KName u => VStr u end) (match k' with KId z => VInt z | KName u => VStr u end) = akey_eqb k k')
    by (destruct k, k'; reflexivity). rewrite E. destruct (akey_eqb k k'); [|apply IH; exact HD]. destruct a; [split; [reflexivity|discriminate]|discriminate].
Qed.

Lemma imported_find : forall f allow v, (forall l, v <> VList l) -> from_id f allow v =
  match find imported f allow (Val v) with
  | Ok (Some (Lib c)) => Ok (VClass c)
  | Ok (Some (User _ _ _)) => Err AssertionError
  | Ok None => Ok v
  | Err e => Err e
  end.
Proof.
  intros f allow v HL. rewrite find_key.
  assert (HG : forall k, dget (registry f) (match k with KId z => VInt z | KName u => VStr u end) =
    match rget (imported f) k with Some (Lib c) => Some (VClass c) | Some (User _ z _) => Some (VInt z) | None => None end /\ forall i z n, rget (imported f) k <> Some (User i z n)).
  { intros k. rewrite <- imported_entries. apply get_entry. apply imported_lib. }
  destruct v as [|b|z|x|s| | |b|u|l|l|d|t v|t v|c|kc ks ke]; cbn [from_id key_of]; try (destruct allow; reflexivity).
  - rewrite registry_get_bool. destruct (HG (KId (if b then 1 else 0))) as [E HU]. rewrite E. destruct (rget (imported f) _) as [[c|i z n]|]; [reflexivity|destruct (HU i z n eq_refl)|destruct allow; reflexivity].
  - destruct (HG (KId z)) as [E HU]. rewrite E. destruct (rget (imported f) _) as [[c|i y n]|]; [reflexivity|destruct (HU i y n eq_refl)|destruct allow; reflexivity].
  - destruct (HG (KName (upper u))) as [E HU]. rewrite E. destruct (rget (imported f) _) as [[c|i y n]|]; [reflexivity|destruct (HU i y n eq_refl)|destruct allow; reflexivity].
  - destruct (HL l eq_refl).
  - destruct (HG (KId (c_id c))) as [E HU]. rewrite E. destruct (rget (imported f) _) as [[c'|i y n]|]; [reflexivity|destruct (HU i y n eq_refl)|destruct allow; reflexivity].
Qed.

(** ** What goes wrong *)

Lemma common_unknown : forall a f, In f [FEC2; FOKP; FRSA; FSym] ->
  (forall c n, In (c, n) (registered f) -> c_id c <> ident a /\ upper n <> upper (name_of a)) ->
  let s := rstep imported (Register FKP a) in
  find s FKP false (Class a) = Ok (Some a) /\
  forall q, by_id (ident a) q \/ by_name (name_of a) q -> find s f false q = Err CoseException.
Proof.
  intros a f HF HN s. assert (HFK : f <> FKP) by (cbn [In] in HF; destruct HF as [<-|[<-|[<-|[<-|[]]]]]; discriminate). split.
  - apply (registered_found [] FKP a [] false (Class a)); [constructor|]. left. reflexivity.
  - intros q HQ. unfold s. rewrite others_kept by (left; exact HFK). rewrite find_key. destruct HQ as [H|H]; [apply by_id_key in H|apply by_name_key in H]; rewrite H.
    + destruct (get_entry (imported f) (KId (ident a)) (imported_lib f)) as [E _]. rewrite imported_entries in E. cbv iota in E.
      rewrite registry_unknown_int in E by (intros c n HI; exact (proj1 (HN c n HI))). destruct (rget (imported f) (KId (ident a))) as [[]|]; [discriminate|discriminate|reflexivity].
    + destruct (get_entry (imported f) (KName (upper (name_of a))) (imported_lib f)) as [E _]. rewrite imported_entries in E. cbv iota in E.
      destruct (dget (registry f) (VStr (upper (name_of a)))) as [v|] eqn:EG.
      * apply registry_get_str in EG as (c & n & HI & _ & HU). destruct (proj2 (HN c n HI)). pose proof (names_upper f c n HI) as [_ HUN]. rewrite HUN. congruence.
      * destruct (rget (imported f) (KName (upper (name_of a)))) as [[]|]; [discriminate|discriminate|reflexivity].
Qed.

Lemma old_name_stays : forall f c n a, In (c, n) (registered f) -> ident a = c_id c -> upper (name_of a) <> n ->
  let s := rstep imported (Register f a) in
  find s f false (Val (VInt (c_id c))) = Ok (Some a) /\ find s f false (Val (VStr n)) = Ok (Some (Lib c)) /\
  find s f false (Class (Lib c)) = Ok (Some a).
Proof.
  intros f c n a HI HE HN s. split; [|split].
  - apply (registered_found [] f a [] false); [constructor|]. left. symmetry. exact HE.
  - unfold s. pose proof (names_upper f c n HI) as [_ HU]. rewrite others_kept.
    + pose proof (imported_find f false (VStr n) ltac:(discriminate)) as HF. cbn [from_id] in HF. rewrite HU, (lookup_name _ _ _ HI) in HF.
      destruct (find imported f false (Val (VStr n))) as [[[c'|]|]|]; try discriminate. congruence.
    + right. cbn [by_id by_name]. split; [intros []|]. rewrite HU. intros E. apply HN. symmetry. exact E.
  - apply (registered_found [] f a [] false); [constructor|]. left. symmetry. exact HE.
Qed.
