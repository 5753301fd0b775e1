(** Lemmas about the attribute registries. *)
From Coq Require Import NArith ZArith Bool String Lia ZifyBool ZifyNat ZifyN.
From Coq Require Import Init.Byte List.
From Verif Require Import Bytes BytesProofs Value ValueProofs Registry Crypto Keys Algorithms SpecIana SpecRegistry.
Import ListNotations.
Local Open Scope result_scope.

(** The registry, entry by entry. *)
Definition entries (e : cls * bytes) : dict :=
  [(VInt (c_id (fst e)), VClass (fst e)); (VStr (snd e), VClass (fst e))].

Lemma registry_entries : forall f, registry f = flat_map entries (registered f).
Proof. intros []; vm_compute; reflexivity. Qed.

Lemma lookup_id_table : forall f,
  forallb (fun e => match dget (registry f) (VInt (c_id (fst e))) with
                    | Some v => veqb v (VClass (fst e)) | None => false end) (registered f) = true.
Proof. intros []; vm_compute; reflexivity. Qed.

Lemma lookup_name_table : forall f,
  forallb (fun e => match dget (registry f) (VStr (snd e)) with
                    | Some v => veqb v (VClass (fst e)) | None => false end) (registered f) = true.
Proof. intros []; vm_compute; reflexivity. Qed.

Lemma lookup_id : forall f c n, In (c, n) (registered f) ->
  dget (registry f) (VInt (c_id c)) = Some (VClass c).
Proof.
  intros f c n H. pose proof (lookup_id_table f) as HT. rewrite forallb_forall in HT.
  specialize (HT _ H). cbn [fst] in HT.
  destruct (dget (registry f) (VInt (c_id c))) as [v|]; [|discriminate].
  apply veqb_eq in HT. congruence.
Qed.

Lemma lookup_name : forall f c n, In (c, n) (registered f) ->
  dget (registry f) (VStr n) = Some (VClass c).
Proof.
  intros f c n H. pose proof (lookup_name_table f) as HT. rewrite forallb_forall in HT.
  specialize (HT _ H). cbn [fst snd] in HT.
  destruct (dget (registry f) (VStr n)) as [v|]; [|discriminate].
  apply veqb_eq in HT. congruence.
Qed.

(** What is found is registered. *)
Lemma registry_get : forall f k v, dget (registry f) k = Some v ->
  exists c n, In (c, n) (registered f) /\ v = VClass c /\
    (keyeq k (VInt (c_id c)) = true \/ keyeq k (VStr n) = true).
Proof.
  intros f k v H. apply dget_In in H as (k' & HI & HK). rewrite registry_entries in HI.
  apply in_flat_map in HI as ([c n] & HC & HI). cbn [entries fst snd In] in HI.
  exists c, n. split; [assumption|].
  destruct HI as [HI|[HI|[]]]; injection HI as <- <-; auto.
Qed.

Lemma keyeq_int_str : forall z s, keyeq (VInt z) (VStr s) = false.
Proof. reflexivity. Qed.
Lemma keyeq_str_int : forall z s, keyeq (VStr s) (VInt z) = false.
Proof. reflexivity. Qed.

Lemma registry_get_int : forall f z v, dget (registry f) (VInt z) = Some v ->
  exists c n, In (c, n) (registered f) /\ v = VClass c /\ c_id c = z.
Proof.
  intros f z v H. apply registry_get in H as (c & n & HI & -> & HK).
  exists c, n. split; [assumption|]. split; [reflexivity|].
  rewrite keyeq_int, keyeq_int_str in HK. destruct HK as [HK|HK]; [lia|discriminate].
Qed.

Lemma registry_get_str : forall f u v, dget (registry f) (VStr u) = Some v ->
  exists c n, In (c, n) (registered f) /\ v = VClass c /\ n = u.
Proof.
  intros f u v H. apply registry_get in H as (c & n & HI & -> & HK).
  exists c, n. split; [assumption|]. split; [reflexivity|].
  rewrite keyeq_str, keyeq_str_int in HK. destruct HK as [HK|HK]; [discriminate|].
  symmetry. apply bytes_eqb_eq. assumption.
Qed.

(** ** Names in any letter case *)

Lemma lower_letter_ascii : forall b, (lower_letter b < 128)%N <-> (b2N b < 128)%N.
Proof. intros b. unfold lower_letter. destruct ((65 <=? b2N b) && (b2N b <=? 90))%N eqn:E; lia. Qed.

Lemma same_letters_ascii : forall u n, same_letters u n -> ascii n -> ascii u.
Proof.
  unfold same_letters, ascii. induction u as [|a u IH]; intros [|b n] H HA; try discriminate.
  - constructor.
  - cbn [map] in H. injection H as H1 H2. inversion HA as [|? ? Hb Hn]; subst.
    constructor; [|eapply IH; eassumption].
    apply lower_letter_ascii. rewrite H1. apply lower_letter_ascii. assumption.
Qed.

Lemma upper_of_lower : forall a b, lower_letter a = lower_letter b -> upper_byte a = upper_byte b.
Proof.
  intros a b H. unfold lower_letter in H. unfold upper_byte, in_range.
  apply b2N_inj.
  destruct ((65 <=? b2N a) && (b2N a <=? 90))%N eqn:Ea;
  destruct ((65 <=? b2N b) && (b2N b <=? 90))%N eqn:Eb;
  destruct ((97 <=? b2N a) && (b2N a <=? 122))%N eqn:Fa;
  destruct ((97 <=? b2N b) && (b2N b <=? 122))%N eqn:Fb;
  repeat rewrite b2N_of_N; try lia.
Qed.

Lemma same_letters_upper : forall u n, same_letters u n -> ascii n -> upper u = upper n.
Proof.
  intros u n H HA. rewrite (upper_ascii u) by (eapply same_letters_ascii; eassumption).
  rewrite (upper_ascii n) by assumption. clear HA. revert n H.
  induction u as [|a u IH]; intros [|b n] H; try discriminate; [reflexivity|].
  unfold same_letters in H. cbn [map] in H. injection H as H1 H2.
  cbn [map]. rewrite (upper_of_lower a b H1), (IH n H2). reflexivity.
Qed.

Definition ascii_b (l : bytes) : bool := forallb (fun b => b2N b <? 128)%N l.

Lemma ascii_b_ascii : forall l, ascii_b l = true -> ascii l.
Proof.
  intros l H. unfold ascii_b in H. rewrite forallb_forall in H. apply Forall_forall.
  intros b Hb. apply H in Hb. lia.
Qed.

Lemma names_upper_table : forall f,
  forallb (fun e => ascii_b (snd e) && bytes_eqb (upper (snd e)) (snd e)) (registered f) = true.
Proof. intros []; vm_compute; reflexivity. Qed.

Lemma names_upper : forall f c n, In (c, n) (registered f) -> ascii n /\ upper n = n.
Proof.
  intros f c n H. pose proof (names_upper_table f) as HT. rewrite forallb_forall in HT.
  specialize (HT _ H). cbn [snd] in HT. apply andb_true_iff in HT as [HA HU].
  split; [apply ascii_b_ascii; assumption|]. apply bytes_eqb_eq. assumption.
Qed.

(** ** C24 *)

Lemma from_id_registered : forall f c n, In (c, n) (registered f) ->
  (forall allow, from_id f allow (VInt (c_id c)) = Ok (VClass c)) /\
  (forall allow u, same_letters u n -> from_id f allow (VStr u) = Ok (VClass c)) /\
  (forall allow, from_id f allow (VClass c) = Ok (VClass c)).
Proof.
  intros f c n H. split; [|split].
  - intros allow. cbn [from_id]. rewrite (lookup_id _ _ _ H). reflexivity.
  - intros allow u HU. destruct (names_upper _ _ _ H) as [HA HN].
    cbn [from_id]. rewrite (same_letters_upper _ _ HU HA), HN, (lookup_name _ _ _ H). reflexivity.
  - intros allow. cbn [from_id]. rewrite (lookup_id _ _ _ H). reflexivity.
Qed.

Lemma keyeq_bool : forall b z, keyeq (VBool b) (VInt z) = Z.eqb (if b then 1 else 0)%Z z.
Proof. intros [] z; reflexivity. Qed.

Lemma registry_get_bool : forall f b, dget (registry f) (VBool b) = dget (registry f) (VInt (if b then 1 else 0)%Z).
Proof. intros f b. apply dget_cong. rewrite keyeq_bool. destruct b; reflexivity. Qed.

Lemma registry_unknown_int : forall f z,
  (forall c n, In (c, n) (registered f) -> c_id c <> z) -> dget (registry f) (VInt z) = None.
Proof.
  intros f z H. destruct (dget (registry f) (VInt z)) as [v|] eqn:E; [|reflexivity].
  apply registry_get_int in E as (c & n & HI & _ & HZ). elim (H _ _ HI HZ).
Qed.

Lemma from_id_unknown : forall f v, unknown_attr f v ->
  from_id f true v = Ok v /\ from_id f false v = Err CoseException.
Proof.
  intros f v H.
  destruct v as [|b|z|x|s| | |b|u|l|l|d|t v|t v|c|kc ks ke]; cbn [from_id]; try (split; reflexivity).
  - rewrite registry_get_bool, registry_unknown_int; [split; reflexivity|]. intros c n HI.
    apply (H _ eq_refl c n HI).
  - rewrite registry_unknown_int; [split; reflexivity|]. intros c n HI. apply (H _ eq_refl c n HI).
  - destruct (dget (registry f) (VStr (upper u))) as [w|] eqn:E; [|split; reflexivity].
    apply registry_get_str in E as (c & n & HI & _ & HN). elim (H _ _ HI). symmetry. assumption.
  - destruct H.
  - rewrite registry_unknown_int; [split; reflexivity|]. intros c' n HI. apply (H _ eq_refl c' n HI).
Qed.

(** Lists are translated element by element, without unknown attributes. *)
Lemma from_id_list : forall f allow l,
  from_id f allow (VList l) = (l' <- mapM (from_id f false) l ;; Ok (VList l')).
Proof. reflexivity. Qed.

(** A successful strict lookup of a single attribute gives a registered class. *)
Lemma from_id_sound : forall f v w, from_id f false v = Ok w -> (forall l, v <> VList l) ->
  exists c n, w = VClass c /\ In (c, n) (registered f).
Proof.
  intros f v w H HL. destruct v as [|b|z|x|s| | |b|u|l|l|d|t v|t v|c|kc ks ke]; cbn [from_id] in H;
    try discriminate.
  - destruct (dget (registry f) (VBool b)) as [w'|] eqn:E; [|discriminate]. injection H as <-.
    apply registry_get in E as (c & n & HI & -> & _). eauto.
  - destruct (dget (registry f) (VInt z)) as [w'|] eqn:E; [|discriminate]. injection H as <-.
    apply registry_get in E as (c & n & HI & -> & _). eauto.
  - destruct (dget (registry f) (VStr (upper u))) as [w'|] eqn:E; [|discriminate]. injection H as <-.
    apply registry_get in E as (c & n & HI & -> & _). eauto.
  - elim (HL l eq_refl).
  - destruct (dget (registry f) (VInt (c_id c))) as [w'|] eqn:E; [|discriminate]. injection H as <-.
    apply registry_get in E as (c' & n & HI & -> & _). eauto.
Qed.

(** ** C25 *)

Definition iana_matches (f : fam) (e : Z * string) : bool :=
  match find (fun r => Z.eqb (fst r) (fst e)) (iana f) with
  | Some r => existsb (fun s => bytes_eqb (squash (bs s)) (squash (bs (snd e)))) (snd r)
  | None => false
  end.

Lemma iana_table : forall f, forallb (iana_matches f) (own_table f) = true.
Proof. intros []; vm_compute; reflexivity. Qed.

Lemma iana_registered : forall f z s, In (z, s) (own_table f) ->
  exists names n, In (z, names) (iana f) /\ In n names /\ squash (bs n) = squash (bs s).
Proof.
  intros f z s H. pose proof (iana_table f) as HT. rewrite forallb_forall in HT.
  specialize (HT _ H). unfold iana_matches in HT. cbn [fst snd] in HT.
  destruct (find (fun r => Z.eqb (fst r) z) (iana f)) as [[z' names]|] eqn:E; [|discriminate].
  apply find_some in E as [HI HZ]. cbn [fst] in HZ. apply Z.eqb_eq in HZ. subst z'.
  cbn [snd] in HT. apply existsb_exists in HT as (n & HN & HQ). apply bytes_eqb_eq in HQ. eauto.
Qed.

Fixpoint nodup_by {A} (eqb : A -> A -> bool) (l : list A) : bool :=
  match l with [] => true | a :: r => negb (existsb (eqb a) r) && nodup_by eqb r end.

Lemma nodup_by_NoDup : forall A (eqb : A -> A -> bool) l, (forall a b, a = b -> eqb a b = true) ->
  nodup_by eqb l = true -> NoDup l.
Proof.
  intros A eqb l HE. induction l as [|a l IH]; intros H; [constructor|].
  cbn [nodup_by] in H. apply andb_true_iff in H as [Ha H]. constructor; [|auto].
  intros HI. rewrite negb_true_iff in Ha. rewrite <- not_true_iff_false in Ha. apply Ha.
  apply existsb_exists. exists a. auto.
Qed.

Lemma iana_unique_table : forall f,
  nodup_by Z.eqb (map (fun e => c_id (fst e)) (registered f)) = true /\
  nodup_by bytes_eqb (map (fun e => upper (snd e)) (registered f)) = true /\
  nodup_by Z.eqb (map fst (iana f)) = true.
Proof. intros []; vm_compute; repeat split. Qed.

Lemma ids_unique : forall f, NoDup (map (fun e => c_id (fst e)) (registered f)).
Proof.
  intros f. apply (nodup_by_NoDup _ Z.eqb); [intros a b ->; apply Z.eqb_refl|]. apply iana_unique_table.
Qed.

Lemma names_unique : forall f, NoDup (map (fun e => upper (snd e)) (registered f)).
Proof.
  intros f. apply (nodup_by_NoDup _ bytes_eqb); [intros a b ->; apply bytes_eqb_refl|].
  apply iana_unique_table.
Qed.

Lemma iana_complete_table : forall f,
  forallb (fun r => existsb (fun e => Z.eqb (fst e) (fst r)) (own_table f)) (iana f) = true.
Proof. intros []; vm_compute; reflexivity. Qed.

Lemma iana_complete : forall f z names, In (z, names) (iana f) -> exists s, In (z, s) (own_table f).
Proof.
  intros f z names H. pose proof (iana_complete_table f) as HT. rewrite forallb_forall in HT.
  specialize (HT _ H). apply existsb_exists in HT as ([z' s] & HI & HZ). cbn [fst] in HZ.
  apply Z.eqb_eq in HZ. subst. eauto.
Qed.

Lemma lengths_table :
  forallb (fun e => match alg_kind (VClass (Cls FAlg (fst e))) with
                    | Some k => kind_matches (snd e) k | None => false end) iana_lengths = true.
Proof. vm_compute. reflexivity. Qed.

Lemma lengths_ids : map fst iana_lengths = map fst iana_alg /\ map fst iana_alg = map fst alg_table /\
  map fst alg_defs = map fst alg_table.
Proof. vm_compute. repeat split. Qed.

Lemma lengths_match : forall z i, In (z, i) iana_lengths ->
  exists k, alg_kind (VClass (Cls FAlg z)) = Some k /\ kind_matches i k = true.
Proof.
  intros z i H. pose proof lengths_table as HT. rewrite forallb_forall in HT. specialize (HT _ H).
  cbn [fst snd] in HT. destruct (alg_kind (VClass (Cls FAlg z))) as [k|]; [|discriminate]. eauto.
Qed.

Definition hash_eqb (a b : hash) : bool :=
  match a, b with SHA1, SHA1 | SHA256, SHA256 | SHA384, SHA384 | SHA512, SHA512 => true | _, _ => false end.

Lemma hash_table_ok :
  forallb (fun e => match alg_kind (VClass (Cls FAlg (fst e))) with
                    | Some k => match kind_hash k with Some h => hash_eqb h (snd e) | None => false end
                    | None => false end) iana_hash = true.
Proof. vm_compute. reflexivity. Qed.

Lemma hash_match : forall z h, In (z, h) iana_hash ->
  exists k, alg_kind (VClass (Cls FAlg z)) = Some k /\ kind_hash k = Some h.
Proof.
  intros z h H. pose proof hash_table_ok as HT. rewrite forallb_forall in HT. specialize (HT _ H).
  cbn [fst snd] in HT. destruct (alg_kind (VClass (Cls FAlg z))) as [k|]; [|discriminate].
  destruct (kind_hash k) as [h'|] eqn:E; [|discriminate]. exists k. split; [reflexivity|].
  destruct h, h'; try discriminate; assumption.
Qed.

Lemma curve_sizes : forall z n, In (z, n) rfc_curve_size -> z <> 5%Z -> curve_size z = n.
Proof.
  intros z n H HZ. unfold rfc_curve_size in H. cbn [In] in H.
  repeat (destruct H as [H|H]; [injection H as <- <-; try reflexivity; elim HZ; reflexivity|]).
  destruct H.
Qed.

(** Key lengths and key wrap algorithms. *)
Lemma alg_kind_in : forall z k, alg_kind (VClass (Cls FAlg z)) = Some k -> In (z, k) alg_defs.
Proof.
  intros z k H. unfold alg_kind in H. destruct (find _ alg_defs) as [[z' k']|] eqn:E; [|discriminate].
  injection H as <-. apply find_some in E. destruct E as [HI HE]. cbn [fst] in HE. apply Z.eqb_eq in HE. subst. exact HI.
Qed.

Lemma key_lengths : forall z n, get_key_length (VClass (Cls FAlg z)) = Ok n <-> In (z, n) rfc_key_length.
Proof.
  intros z n. split.
  - intros H. unfold get_key_length in H. destruct (alg_kind (VClass (Cls FAlg z))) as [k|] eqn:E; [|discriminate].
    apply alg_kind_in in E. unfold alg_defs in E. cbn [In] in E.
    repeat (destruct E as [E|E]; [injection E as <- <-; first [discriminate H|vm_compute in H; injection H as <-; vm_compute; tauto]|]). destruct E.
  - intros H. unfold rfc_key_length in H. cbn [In] in H.
    repeat (destruct H as [H|H]; [injection H as <- <-; vm_compute; reflexivity|]). destruct H.
Qed.

Lemma key_wraps : forall z v, get_key_wrap_func (VClass (Cls FAlg z)) = Ok v <-> exists w, In (z, w) rfc_key_wrap /\ v = VClass (Cls FAlg w).
Proof.
  intros z v. split.
  - intros H. unfold get_key_wrap_func in H. destruct (alg_kind (VClass (Cls FAlg z))) as [k|] eqn:E; [|discriminate].
    apply alg_kind_in in E. unfold alg_defs in E. cbn [In] in E.
    repeat (destruct E as [E|E]; [injection E as <- <-; first [discriminate H|vm_compute in H; injection H as <-; eexists; split; [|reflexivity]; vm_compute; tauto]|]). destruct E.
  - intros (w & H & ->). unfold rfc_key_wrap in H. cbn [In] in H.
    repeat (destruct H as [H|H]; [injection H as <- <-; vm_compute; reflexivity|]). destruct H.
Qed.

Lemma key_length_err : forall v e, get_key_length v = Err e -> e = AttributeError.
Proof.
  intros v e H. unfold get_key_length, kw_length in H.
  repeat match type of H with context [match ?u with _ => _ end] => destruct u; try discriminate end; congruence.
Qed.

Lemma key_wrap_err : forall v e, get_key_wrap_func v = Err e -> e = AttributeError.
Proof.
  intros v e H. unfold get_key_wrap_func in H.
  repeat match type of H with context [match ?u with _ => _ end] => destruct u; try discriminate end; congruence.
Qed.

Lemma upper_same_letters : forall u, ascii u -> same_letters u (upper u).
Proof.
  intros u HA. rewrite upper_ascii by assumption. unfold same_letters. rewrite map_map.
  apply map_ext. intros b. unfold lower_letter, upper_byte, in_range.
  destruct ((97 <=? b2N b) && (b2N b <=? 122))%N eqn:E; [|reflexivity].
  destruct ((65 <=? b2N b) && (b2N b <=? 90))%N eqn:E1; [lia|].
  rewrite !b2N_of_N by lia.
  rewrite !N.mod_small by lia. destruct ((65 <=? b2N b - 32) && (b2N b - 32 <=? 90))%N eqn:E2; lia.
Qed.

Lemma from_id_name_only : forall f allow u c, ascii u -> from_id f allow (VStr u) = Ok (VClass c) ->
  exists n, In (c, n) (registered f) /\ same_letters u n.
Proof.
  intros f allow u c HA H. cbn [from_id] in H.
  destruct (dget (registry f) (VStr (upper u))) as [w|] eqn:E;
    [|destruct allow; discriminate]. injection H as ->.
  apply registry_get_str in E as (c' & n & HI & HC & ->). injection HC as <-.
  eexists. split; [eassumption|]. apply upper_same_letters. assumption.
Qed.

Lemma from_id_id_only : forall f allow z c, from_id f allow (VInt z) = Ok (VClass c) ->
  c_id c = z /\ exists n, In (c, n) (registered f).
Proof.
  intros f allow z c H. cbn [from_id] in H.
  destruct (dget (registry f) (VInt z)) as [w|] eqn:E; [|destruct allow; discriminate].
  injection H as ->. apply registry_get_int in E as (c' & n & HI & HC & HZ). injection HC as <-.
  split; [assumption|]. eauto.
Qed.

(** ** Spellings *)

Lemma registered_id_unique : forall f c n c' n', In (c, n) (registered f) -> In (c', n') (registered f) ->
  c_id c = c_id c' -> c = c' /\ n = n'.
Proof.
  intros f c n c' n' H H' E. pose proof (lookup_id _ _ _ H) as L. rewrite E in L.
  rewrite (lookup_id _ _ _ H') in L. injection L as L. subst c'. split; [reflexivity|].
  pose proof (ids_unique f) as HU. revert HU H H'. generalize (registered f).
  induction l as [|[c0 n0] l IH]; intros HU H H'; [destruct H|].
  cbn [map fst] in HU. inversion HU as [|? ? HN HU']; subst.
  destruct H as [H|H]; destruct H' as [H'|H'].
  - congruence.
  - injection H as -> ->. elim HN. apply in_map_iff. exists (c, n'). split; [reflexivity|assumption].
  - injection H' as -> ->. elim HN. apply in_map_iff. exists (c, n). split; [reflexivity|assumption].
  - apply IH; assumption.
Qed.

Lemma registered_name_unique : forall f c n c', In (c, n) (registered f) -> In (c', n) (registered f) -> c = c'.
Proof.
  intros f c n c' H H'. pose proof (lookup_name _ _ _ H) as L. rewrite (lookup_name _ _ _ H') in L. congruence.
Qed.

Lemma from_id_spells : forall f allow c n k, In (c, n) (registered f) -> spells c n k ->
  from_id f allow k = Ok (VClass c).
Proof.
  intros f allow c n k HI HS.
  destruct k as [|b|z|x|s| | |b|u|l|l|d|t v|t v|c'|kc ks ke]; cbn [spells] in HS; try contradiction; cbn [from_id].
  - rewrite registry_get_bool, HS. rewrite (lookup_id _ _ _ HI). reflexivity.
  - rewrite HS, (lookup_id _ _ _ HI). reflexivity.
  - rewrite HS, (lookup_name _ _ _ HI). reflexivity.
  - rewrite HS, (lookup_id _ _ _ HI). reflexivity.
Qed.

(** Every successful lookup: a registered class that the value spells, an unknown value
    that is kept, or a list. *)
Lemma from_id_cases : forall f allow k a, from_id f allow k = Ok a ->
  (exists c n, In (c, n) (registered f) /\ spells c n k /\ a = VClass c) \/
  (allow = true /\ unknown_attr f k /\ a = k) \/
  (exists l l', k = VList l /\ a = VList l' /\ mapM (from_id f false) l = Ok l').
Proof.
  intros f allow k a H.
  assert (HU : forall r : result pyval, r = (if allow then Ok k else Err CoseException) -> r = Ok a -> allow = true /\ a = k).
  { intros r -> HR. destruct allow; [|discriminate]. split; [reflexivity|congruence]. }
  destruct k as [|b|z|x|s| | |b|u|l|l|d|t v|t v|c|kc ks ke]; cbn [from_id] in H;
    try (right; left; apply (HU _ eq_refl) in H as [HA HK]; split; [assumption|];
         split; [intros z Hz; discriminate|assumption]).
  - destruct (dget (registry f) (VBool b)) as [w|] eqn:E.
    + injection H as <-. rewrite registry_get_bool in E. apply registry_get_int in E as (c & n & HI & -> & HZ).
      left. exists c, n. split; [assumption|]. split; [cbn [spells]; congruence|reflexivity].
    + apply (HU _ eq_refl) in H as [HA HK]. right; left. split; [assumption|]. split; [|assumption].
      intros z Hz c n HI HC. cbn [int_value] in Hz. injection Hz as <-. rewrite registry_get_bool, <- HC in E.
      rewrite (lookup_id _ _ _ HI) in E. discriminate.
  - destruct (dget (registry f) (VInt z)) as [w|] eqn:E.
    + injection H as <-. apply registry_get_int in E as (c & n & HI & -> & HZ).
      left. exists c, n. split; [assumption|]. split; [cbn [spells]; congruence|reflexivity].
    + apply (HU _ eq_refl) in H as [HA HK]. right; left. split; [assumption|]. split; [|assumption].
      intros z' Hz c n HI HC. cbn [int_value] in Hz. injection Hz as <-. rewrite <- HC in E.
      rewrite (lookup_id _ _ _ HI) in E. discriminate.
  - destruct (dget (registry f) (VStr (upper u))) as [w|] eqn:E.
    + injection H as <-. apply registry_get_str in E as (c & n & HI & -> & HZ).
      left. exists c, n. split; [assumption|]. split; [cbn [spells]; congruence|reflexivity].
    + apply (HU _ eq_refl) in H as [HA HK]. right; left. split; [assumption|]. split; [|assumption].
      intros c n HI HC. rewrite HC in E. rewrite (lookup_name _ _ _ HI) in E. discriminate.
  - right; right. destruct (mapM (from_id f false) l) as [l'|e] eqn:E; [|discriminate].
    injection H as <-. exists l, l'. split; [reflexivity|]. split; [reflexivity|assumption].
  - destruct (dget (registry f) (VInt (c_id c))) as [w|] eqn:E.
    + injection H as <-. apply registry_get_int in E as (c' & n & HI & -> & HZ).
      left. exists c', n. split; [assumption|]. split; [cbn [spells]; congruence|reflexivity].
    + apply (HU _ eq_refl) in H as [HA HK]. right; left. split; [assumption|]. split; [|assumption].
      intros z' Hz c' n HI HC. cbn [int_value] in Hz. injection Hz as <-. rewrite <- HC in E.
      rewrite (lookup_id _ _ _ HI) in E. discriminate.
Qed.

Lemma unknown_not_spelled : forall f k c n, unknown_attr f k -> In (c, n) (registered f) -> ~ spells c n k.
Proof.
  intros f k c n HU HI HS.
  destruct k as [|b|z|x|s| | |b|u|l|l|d|t v|t v|c'|kc ks ke]; cbn [spells unknown_attr] in *; try contradiction.
  - eapply HU; [cbn [int_value]; reflexivity|eassumption|]. congruence.
  - eapply HU; [cbn [int_value]; reflexivity|eassumption|]. congruence.
  - eapply HU; eassumption.
  - eapply HU; [cbn [int_value]; reflexivity|eassumption|]. congruence.
Qed.

Lemma not_spelled_other : forall f allow c n k a, In (c, n) (registered f) -> from_id f allow k = Ok a ->
  ~ spells c n k -> a <> VClass c /\ ~ spells c n a.
Proof.
  intros f allow c n k a HI H HS. destruct (from_id_cases _ _ _ _ H) as [(c' & n' & HI' & HS' & ->)|[(_ & HU & ->)|(l & l' & -> & -> & _)]].
  - assert (HN : c_id c' <> c_id c).
    { intros E. destruct (registered_id_unique _ _ _ _ _ HI' HI E) as [-> ->]. contradiction. }
    split; [intros E; injection E as ->; congruence|]. cbn [spells]. assumption.
  - split; [|assumption]. intros ->. apply HS. reflexivity.
  - split; [discriminate|]. intros HF; exact HF.
Qed.

Lemma from_id_names_list : forall f l,
  Forall (fun v => forall w, from_id f false v = Ok w -> names f v w) l ->
  forall l', mapM (from_id f false) l = Ok l' -> Forall2 (names f) l l'.
Proof.
  induction l as [|x l IH]; intros HF l' H; cbn [mapM] in H.
  - injection H as <-. constructor.
  - inversion HF; subst. apply bind_ok in H as (y & HY & H). apply bind_ok in H as (ys & HYS & H).
    injection H as <-. constructor; auto.
Qed.

Lemma from_id_names : forall f v w, from_id f false v = Ok w -> names f v w.
Proof.
  intros f. induction v as [|b|z|x|n| | |b|b|l HF|l HF|d HF|t v IH|t v IH|c|k s e HS HE] using pyval_ind';
    intros w H; destruct (from_id_cases _ _ _ _ H) as [(c' & n' & HI' & HS' & ->)|[(E & _)|(l0 & l' & E & -> & HM)]];
    try discriminate; try (econstructor; eassumption).
  injection E as ->. constructor. apply from_id_names_list; assumption.
Qed.

Lemma stands_from_id : forall f a s, stands_for f a s -> from_id f true a = Ok s.
Proof.
  intros f a s [(c & n & HI & HS & ->)|(HU & ->)].
  - eapply from_id_spells; eassumption.
  - apply from_id_unknown. assumption.
Qed.

Lemma from_id_stands : forall f a s, from_id f true a = Ok s -> (forall l, a <> VList l) -> stands_for f a s.
Proof.
  intros f a s H HL. destruct (from_id_cases _ _ _ _ H) as [H'|[(_ & HU & ->)|(l & l' & -> & _)]].
  - left. exact H'.
  - right. auto.
  - elim (HL l). reflexivity.
Qed.

Lemma stands_class : forall f a c, stands_for f a (VClass c) <-> from_id f true a = Ok (VClass c).
Proof.
  intros f a c. split; [apply stands_from_id|]. intros H. apply from_id_stands; [assumption|].
  intros l ->. cbn [from_id] in H. destruct (mapM (from_id f false) l); discriminate.
Qed.
