(** C99: headers set after construction.

    Vocabulary: SpecAssign.v, SpecHdr.v, SpecRegistry.v ([spells]). *)
From Coq Require Import NArith ZArith Bool String.
From Coq Require Import Init.Byte List.
From Verif Require Import Bytes Value Cbor Registry Crypto Toy Keys Algorithms Headers Messages Recipients.
From Verif Require Import SpecRegistry SpecHdr SpecMsg SpecAlg SpecData SpecAssign ValueProofs RegistryProofs DataProofs HdrProofs HdrProofs2 KeyTrip PropHdr PropMsg PropRcpt.
Import ListNotations.

(** ** Refuted *)

(** A header that is assigned under its number or name is not found under the header's class,
    with which get_attr is called throughout the library; the constructor finds it. *)
Theorem C99_not_found_refuted : forall c h n k v, In (h, n) (registered FHdr) -> spells h n k -> k <> VClass h ->
  dget (phdr (fst (hdr_step c (HSetPhdr (VDict [(k, v)]))))) (VClass h) = None /\
  dget (uhdr (fst (hdr_step c (HSetUhdr (VDict [(k, v)]))))) (VClass h) = None /\
  (forall X a c', core_init X a = Ok c' -> a_phdr a = VDict [(k, v)] -> dget (phdr c') (VClass h) <> None) /\
  (forall X a c', core_init X a = Ok c' -> a_uhdr a = VDict [(k, v)] -> dget (uhdr c') (VClass h) <> None).
Proof.
  intros c h n k v HI HS HK.
  assert (HE : keyeq (VClass h) k = false).
  { destruct (keyeq (VClass h) k) eqn:E; [|reflexivity]. apply keyeq_class in E. congruence. }
  assert (HF : forall X allow h', parse_items X allow [(k, v)] [] = Ok h' -> dget h' (VClass h) <> None).
  { intros X allow h' HD. cbn [parse_items] in HD. rewrite (from_id_spells _ allow _ _ _ HI HS) in HD. cbn [bind] in HD.
    apply bind_ok in HD as (w & _ & HD). injection HD as <-. cbn [dset dget]. rewrite keyeq_refl. discriminate. }
  cbn [hdr_step fst phdr uhdr with_phdr with_uhdr dget]. rewrite HE. split; [reflexivity|]. split; [reflexivity|].
  split; intros X a c' HC HA; apply core_init_inv in HC as (pd & ud & HP & HU & HD & HD' & _).
  - assert (pd = [(k, v)]) by (destruct HP as [[HX _]|[[HX _]|[HX _]]]; congruence). subst pd. exact (HF _ _ _ HD).
  - assert (ud = [(k, v)]) by (destruct HU as [HX|[HX _]]; congruence). subst ud. exact (HF _ _ _ HD').
Qed.
Print Assumptions C99_not_found_refuted.

(** What the constructor refuses can be assigned: every value of every header, in every spelling. *)
Theorem C99_not_checked_refuted : forall c d,
  hdr_step c (HSetPhdr (VDict d)) = (with_phdr c d None, Ok tt) /\
  hdr_step c (HSetUhdr (VDict d)) = (with_uhdr c d, Ok tt) /\
  (forall X a c' h n k v, core_init X a = Ok c' -> a_phdr a = VDict d -> In (h, n) (registered FHdr) -> In (k, v) d -> spells h n k -> legal_value h v) /\
  (forall X a c' h n k v, core_init X a = Ok c' -> a_uhdr a = VDict d -> In (h, n) (registered FHdr) -> In (k, v) d -> spells h n k -> legal_value h v).
Proof.
  intros c d. split; [reflexivity|]. split; [reflexivity|].
  split; intros X a c' h n k v HC HA HI HV HS; apply core_init_inv in HC as (pd & ud & HP & HU & HD & HD' & _).
  - assert (pd = d) by (destruct HP as [[HX _]|[[HX _]|[HX _]]]; congruence). subst pd. exact (parse_items_legal _ _ _ _ _ HD _ _ _ _ HI HV HS).
  - assert (ud = d) by (destruct HU as [HX|[HX _]]; congruence). subst ud. exact (parse_items_legal _ _ _ _ _ HD' _ _ _ _ HI HV HS).
Qed.
Print Assumptions C99_not_checked_refuted.

(** ** What holds *)

Lemma settled_parsed : forall X c n v, In (c, n) (registered FHdr) -> settled_value c v -> parse_value X (VClass c) v = Ok v.
Proof.
  intros X c n v HI (H1 & HB & H2 & H3 & H4 & H5).
  pose proof (registered_fam _ _ _ HI (or_introl eq_refl)) as HF. destruct c as [f z]. cbn [c_fam c_id] in *. subst f.
  assert (HBS : In z bstr_headers -> is_bstr v = Ok v) by (intros HZ; destruct (HB HZ) as [b ->]; reflexivity).
  destruct (Z.eq_dec z 1) as [->|N1]; [destruct (H1 eq_refl) as (a & m & -> & HA); exact (from_id_spells FAlg false a m (VClass a) HA eq_refl)|].
  destruct (Z.eq_dec z 2) as [->|N2].
  { destruct (H2 eq_refl) as (l & -> & HL & HA). cbn [parse_value crit_is_array].
    replace (forallb int_or_str l) with true; [destruct l; [contradiction|reflexivity]|].
    symmetry. apply forallb_forall. intros x HX. rewrite Forall_forall in HA. destruct (HA _ HX) as [[y ->]|[[y ->]|[y ->]]]; reflexivity. }
  destruct (Z.eq_dec z 3) as [->|N3].
  { destruct (H3 eq_refl) as [(y & -> & HY)|(u & ->)]; [|reflexivity]. cbn [parse_value content_type_is_uint_or_tstr as_int].
    destruct (Z.ltb_spec y 0); [exfalso; apply (Z.lt_irrefl y); eapply Z.lt_le_trans; eassumption|reflexivity]. }
  destruct (Z.eq_dec z 4) as [->|N4]; [apply HBS; cbn; auto 10|]. destruct (Z.eq_dec z 5) as [->|N5]; [apply HBS; cbn; auto 10|].
  destruct (Z.eq_dec z 6) as [->|N6]; [apply HBS; cbn; auto 10|]. destruct (Z.eq_dec z 9) as [->|N9]; [apply HBS; cbn; auto 10|].
  destruct (Z.eq_dec z 10) as [->|N10]; [apply HBS; cbn; auto 10|].
  unfold parse_value.
  repeat match goal with |- match ?x with _ => _ end = _ => destruct x; try reflexivity; try congruence end.
Qed.

Lemma settled_kept : forall X allow d acc, settled_headers allow d -> parse_items X allow d acc = Ok (dupdate acc d).
Proof.
  intros X allow d acc [HD HF]. clear HD. revert acc. induction d as [|[k v] d IH]; intros acc; [reflexivity|].
  cbn [parse_items]. rewrite dupdate_cons.
  assert (HH : from_id FHdr allow k = Ok k /\ parse_value X k v = Ok v).
  { destruct (HF k v (or_introl eq_refl)) as [(c & n & HI & -> & HV)|[-> HU]].
    - split; [apply (from_id_spells _ _ _ _ _ HI); reflexivity|eapply settled_parsed; eassumption].
    - split; [apply from_id_unknown; assumption|apply parse_value_unknown; assumption]. }
  destruct HH as [-> HV]. cbn [bind]. rewrite HV. cbn [bind]. apply IH. intros k' v' HI. apply HF. right. exact HI.
Qed.

Lemma settled_items : forall X allow d, settled_headers allow d -> parse_items X allow d [] = Ok d /\ dupdate [] d = d.
Proof.
  intros X allow d H. pose proof (settled_kept X _ _ [] H) as HK. destruct H as [HD _].
  assert (E : dupdate [] d = d) by (apply (dupdate_disjoint d []); [rewrite <- distinct_keys_dnodup; exact HD|reflexivity]). rewrite E in HK. split; assumption.
Qed.

(** Headers written the way messages keep them: assigning them to a message, or adding them to a
    message without headers, gives the message that the constructor makes with them. The
    constructor accepts them all. *)
Theorem C99_assign_partial : forall X d e u pl ad k t al c, settled_headers al d ->
  core_init X (Args e u pl ad k VNone t al) = Ok c -> e = VNone \/ e = VDict [] ->
  exists c', core_init X (Args (VDict d) u pl ad k VNone t al) = Ok c' /\
    hdr_step c (HSetPhdr (VDict d)) = (c', Ok tt) /\
    hdr_step c (HUpdatePhdr (VDict d)) = (c', Ok tt) /\ phdr c' = d.
Proof.
  intros X d e u pl ad k t al c HS HC HE. destruct (settled_items X _ _ HS) as [HP HU].
  assert (HC' : core_init X (Args (VDict []) u pl ad k VNone t al) = Ok c) by (destruct HE as [->| ->]; exact HC). clear HC HE.
  unfold core_init in *. cbn [a_phdr a_uhdr a_payload a_aad a_key a_phdr_encoded a_tstr a_allow bind parse_items] in *.
  destruct u as [| | | | | | | | | | |ud| | | |]; try discriminate HC'; rewrite HP; cbn [bind];
  apply bind_ok in HC' as (uu & HQ & HC); rewrite HQ; clear HQ; apply bind_ok in HC as (p' & -> & HC); apply bind_ok in HC as (a' & -> & HC);
  apply bind_ok in HC as (k' & -> & HC); injection HC as <-; cbn [bind]; (eexists; split; [reflexivity|]);
  cbn [hdr_step phdr with_phdr]; rewrite HU; repeat split; reflexivity.
Qed.
Print Assumptions C99_assign_partial.

(** The unprotected headers likewise. *)
Theorem C99_assign_unprotected_partial : forall X d e p enc pl ad k t al c, settled_headers al d ->
  core_init X (Args p e pl ad k enc t al) = Ok c -> e = VNone \/ e = VDict [] ->
  exists c', core_init X (Args p (VDict d) pl ad k enc t al) = Ok c' /\
    hdr_step c (HSetUhdr (VDict d)) = (c', Ok tt) /\
    hdr_step c (HUpdateUhdr (VDict d)) = (c', Ok tt) /\ uhdr c' = d.
Proof.
  intros X d e p enc pl ad k t al c HS HC HE. destruct (settled_items X _ _ HS) as [HP HU].
  assert (HC' : core_init X (Args p (VDict []) pl ad k enc t al) = Ok c) by (destruct HE as [->| ->]; exact HC). clear HC HE.
  unfold core_init in *. cbn [a_phdr a_uhdr a_payload a_aad a_key a_phdr_encoded a_tstr a_allow] in *.
  apply bind_ok in HC' as (ph & HH & HC). rewrite HH. cbn [bind]. destruct ph; try discriminate HC.
  apply bind_ok in HC as (pp & HPP & HC). rewrite HPP. cbn [bind parse_items] in *. rewrite HP. cbn [bind].
  apply bind_ok in HC as (raw & HR & HC). rewrite HR. cbn [bind].
  apply bind_ok in HC as (p' & -> & HC). apply bind_ok in HC as (a' & -> & HC).
  apply bind_ok in HC as (k' & -> & HC). injection HC as <-. cbn [bind]. eexists. split; [reflexivity|].
  cbn [hdr_step uhdr with_uhdr]. rewrite HU. repeat split; reflexivity.
Qed.
Print Assumptions C99_assign_unprotected_partial.

(** Assignment replaces all headers of the map, an update replaces those it lists, and neither
    changes the other map, the payload, the key or anything else. What is not a dictionary is
    refused and changes nothing. *)
Theorem C99_other_headers_partial : forall c d, distinct_keys d = true ->
  (forall k, dget (phdr (fst (hdr_step c (HSetPhdr (VDict d))))) k = dget d k) /\
  (forall k, dget (uhdr (fst (hdr_step c (HSetUhdr (VDict d))))) k = dget d k) /\
  (forall k, dget (phdr (fst (hdr_step c (HUpdatePhdr (VDict d))))) k = match dget d k with Some v => Some v | None => dget (phdr c) k end) /\
  (forall k, dget (uhdr (fst (hdr_step c (HUpdateUhdr (VDict d))))) k = match dget d k with Some v => Some v | None => dget (uhdr c) k end) /\
  (forall o, o = HSetPhdr (VDict d) \/ o = HUpdatePhdr (VDict d) -> uhdr (fst (hdr_step c o)) = uhdr c) /\
  (forall o, o = HSetUhdr (VDict d) \/ o = HUpdateUhdr (VDict d) -> phdr (fst (hdr_step c o)) = phdr c /\ phdr_raw (fst (hdr_step c o)) = phdr_raw c) /\
  (forall o, let c' := fst (hdr_step c o) in payload c' = payload c /\ aad c' = aad c /\ ckey c' = ckey c /\ local c' = local c /\ tstr c' = tstr c) /\
  (forall v, (forall e, v <> VDict e) -> forall o, In o [HSetPhdr v; HSetUhdr v; HUpdatePhdr v; HUpdateUhdr v] -> hdr_step c o = (c, Err TypeError)).
Proof.
  intros c d HD. rewrite distinct_keys_dnodup in HD.
  split; [reflexivity|]. split; [reflexivity|].
  split; [intros k; cbn [hdr_step fst phdr with_phdr]; rewrite dget_dupdate, dget_rev by exact HD; reflexivity|].
  split; [intros k; cbn [hdr_step fst uhdr with_uhdr]; rewrite dget_dupdate, dget_rev by exact HD; reflexivity|].
  split; [intros o [->| ->]; reflexivity|]. split; [intros o [->| ->]; split; reflexivity|]. split.
  - intros o. destruct o as [v|v|v|v|k v|k|k v|k]; cbn [hdr_step].
    1-4: destruct v; repeat split; reflexivity.
    all: destruct (hashable k); repeat split; reflexivity.
  - intros v HV o HO. cbn [In] in HO. destruct v; try (destruct HO as [<-|[<-|[<-|[<-|[]]]]]; reflexivity). elim (HV d0 eq_refl).
Qed.
Print Assumptions C99_other_headers_partial.

(** Non-vacuity: two headers and an unregistered label, assigned to a message with an unprotected
    header, and the key identifier assigned under its name. *)
Example C99_example :
  let d := [(Algorithm, alg (-7)); (KID, VBytes (bs "k1")); (VStr (bs "own"), VInt 5)] in
  settled_headers true d /\
  (exists c, core_init toy (Args VNone (VDict ex_unprotected) (VBytes (bs "hello")) (VBytes []) VNone VNone true true) = Ok c) /\
  exists n, In (Cls FHdr 4, n) (registered FHdr) /\ spells (Cls FHdr 4) n (VStr (bs "KID")) /\ spells (Cls FHdr 4) n (VInt 4).
Proof.
  cbv zeta. split; [split|split].
  - vm_compute. reflexivity.
  - intros k v [E|[E|[E|[]]]]; injection E as <- <-.
    + left. exists (Cls FHdr 1), (bs "ALG"). split; [in_list|]. split; [reflexivity|].
      unfold settled_value. cbn [c_id]. split; [|split; [intros HI; cbn in HI; intuition discriminate|repeat split; discriminate]].
      intros _. exists (Cls FAlg (-7)), (bs "ES256"). split; [reflexivity|in_list].
    + left. exists (Cls FHdr 4), (bs "KID"). split; [in_list|]. split; [reflexivity|].
      unfold settled_value. cbn [c_id]. split; [discriminate|]. split; [intros _; eexists; reflexivity|repeat split; discriminate].
    + right. split; [reflexivity|]. unknown.
  - eexists. vm_compute. reflexivity.
  - exists (bs "KID"). split; [in_list|]. split; reflexivity.
Qed.
