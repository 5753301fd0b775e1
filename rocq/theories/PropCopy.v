(** C106: a key can be copied, and put into a header, without changing it.

    [from_dict] takes a mapping; key objects are mappings (C91), so [CoseKey.from_dict(key)] and
    [CoseKey.from_dict(dict(key))] copy a key. The headers EPHEMERAL_KEY and STATIC_KEY store such
    a copy. Vocabulary: SpecTrip.v ([portable], [built], [same_key]), SpecMapping.v, SpecHdr.v. *)
From Coq Require Import NArith ZArith Bool String.
From Coq Require Import Init.Byte List.
From Verif Require Import Bytes Value Registry Crypto Toy Keys Headers SpecRegistry SpecKeys SpecHdr SpecTrip SpecMapping
  MiscProofs KeyTrip2 MapProofs CopyProofs PropKeys PropTrip PropMapping PropHdr.
Import ListNotations.

(** Every complete, well-typed key, as an object or as a dict of its items, however it came about. *)
Theorem C106_copy_partial : forall X k, portable X k ->
  (exists k', from_dict X (kval k) = Ok k' /\ same_key k k') /\ (exists k', from_dict X (VDict (k_store k)) = Ok k' /\ same_key k k').
Proof. intros X k H. split; apply (copied X k _ H); auto. Qed.
Print Assumptions C106_copy_partial.

(** In particular what the constructors build. *)
Theorem C106_built_partial : forall X k, built X k -> exists k', from_dict X (kval k) = Ok k' /\ same_key k k'.
Proof. intros X k H. apply (copied X k _ (built_portable X k H)). auto. Qed.
Print Assumptions C106_built_partial.

(** Whether complete or not, after any history, the object and its items mean the same to
    [from_dict], so long as its key type is its own and no label is a float. *)
Theorem C106_object_or_items_partial : forall X k, reachable X k -> param k KpKty = Some (type_of (k_cls k)) ->
  Forall (fun e => forall f, fst e <> VFloat f) (k_store k) -> from_dict X (kval k) = from_dict X (VDict (k_store k)).
Proof. intros X k HR HK HF. apply from_key; [apply (reachable_good X k HR)|assumption|assumption]. Qed.
Print Assumptions C106_object_or_items_partial.

(** A key given as header EPHEMERAL_KEY or STATIC_KEY, under any spelling, in either map: the
    message holds the same key. *)
Theorem C106_header_partial : forall X a c pd ud, core_init X a = Ok c ->
  protected_map (a_phdr a) (a_phdr_encoded a) pd -> unprotected_map (a_uhdr a) ud ->
  forall h n k v, In (h, n) (registered FHdr) -> In (c_id h) [-1; -2]%Z -> portable X k -> v = kval k \/ v = VDict (k_store k) ->
    (last_value (spells h n) pd v -> exists k', dget (phdr c) (VClass h) = Some (kval k') /\ same_key k k') /\
    (last_value (spells h n) ud v -> exists k', dget (uhdr c) (VClass h) = Some (kval k') /\ same_key k k').
Proof.
  intros X a c pd ud H HP HU h n k v HI HZ HK HV. destruct (C26_constructed_normal X a c H) as (pd' & ud' & HP' & HU' & NP & NU).
  pose proof (PropHdr.protected_map_unique _ _ _ _ HP' HP) as ->. pose proof (PropHdr.unprotected_map_unique _ _ _ HU' HU) as ->.
  destruct (copied X k v HK HV) as (k' & HF & HS).
  assert (HE : forall w, header_value X h v w -> w = kval k').
  { intros w HW. unfold header_value in HW. destruct HZ as [HZ|[HZ|[]]]; rewrite <- HZ in HW; cbn in HW; destruct HW as (k'' & HF' & ->); congruence. }
  split; intros HL; [destruct (proj1 (NP h n HI) v HL) as (w & HD & HW)|destruct (proj1 (NU h n HI) v HL) as (w & HD & HW)];
    exists k'; rewrite (HE w HW) in HD; auto.
Qed.
Print Assumptions C106_header_partial.

(** ** What goes wrong *)

(** The copy of a multi-prime RSA key has two primes. *)
Theorem C106_multi_prime_refuted : forall X a opt allow k,
  rsa_typed a -> rsa_multi_prime_form a -> options_ok KRSA opt -> rsa_init a opt allow = Ok k ->
  exists k', from_dict X (kval k) = Ok k' /\ (forall p, param k' p = param k p) /\
    k_extra k = [(VStr (bs "other"), ra_other a); (VStr (bs "r_i"), ra_ri a); (VStr (bs "d_i"), ra_di a); (VStr (bs "t_i"), ra_ti a)] /\ k_extra k' = [].
Proof.
  intros X [n e d p q dp dq qi ot ri di ti] opt allow k HT HM HO H.
  destruct (multi_prime_init _ _ _ _ _ _ _ _ _ _ _ _ _ _ _ HT HM H) as [HI HX].
  pose proof (rsa_built X _ _ _ _ _ _ _ _ _ _ _ _ HO (or_introl eq_refl) HI) as HP.
  destruct (copied X _ _ HP (or_intror eq_refl)) as (k' & HF & HC & HE & HG).
  assert (HR : constructed X k) by (eapply ConRSA; exact H).
  assert (HB : k_cls k = KRSA) by (apply KeyProofs.rsa_init_fresh in H; apply (KeyProofs.fr_cls _ _ H)).
  exists k'. split; [|split; [intros r; unfold param; rewrite HG; destruct k; reflexivity|split; [exact HX|destruct k; exact HE]]].
  rewrite <- HF. replace (k_store (with_extra k [])) with (k_store k) by (destruct k; reflexivity).
  destruct HP as (_ & _ & HK & HS & _).
  apply from_key.
  - apply (constructed_labels X k HR).
  - replace (k_store k) with (k_store (with_extra k [])) by (destruct k; reflexivity). eapply Forall_impl; [|exact HS].
    intros [b v] HV f Q. cbn [fst snd] in *. subst b. inversion HV.
  - unfold has, param in *. replace (k_store (with_extra k [])) with (k_store k) in * by (destruct k; reflexivity).
    replace (k_cls (with_extra k [])) with (k_cls k) in HS by (destruct k; reflexivity).
    destruct (dget (k_store k) (VClass KpKty)) as [v|] eqn:E; [|elim HK; reflexivity]. f_equal.
    apply (KeyTrip.store_param (k_cls k) (k_store k) KpKty v HS) in E. apply KeyTrip.param_ok_kty in E. rewrite KeyProofs.type_of_kty. exact E.
Qed.
Print Assumptions C106_multi_prime_refuted.

(** A key that lost a private number cannot be copied. *)
Theorem C106_deleted_refuted : exists k, reachable toy k /\ has k KpKty /\ from_dict toy (kval k) = Err CoseInvalidKey.
Proof.
  pose (b := VBytes [x05]). pose (mk := rsa_init (RsaArgs b b b b b b b b VNone (VBytes []) (VBytes []) (VBytes [])) VNone true).
  assert (E : mk = Ok (got mk)) by (vm_compute; reflexivity).
  exists (key_run (got mk) [KDelItem (VClass RSAKpQ)]). split; [|split; [vm_compute; discriminate|vm_compute; reflexivity]].
  exists (got mk), [KDelItem (VClass RSAKpQ)]. split; [|reflexivity]. unfold mk in E at 1. eapply ConRSA. exact E.
Qed.
Print Assumptions C106_deleted_refuted.

(** ** The hypotheses are met *)

Example C106_example : exists k, PropTrip.ex_key = Ok k /\ built toy k /\ has k KpKeyOps /\ has k EC2KpD.
Proof.
  destruct PropTrip.ex_key as [k|] eqn:E; [|vm_compute in E; discriminate]. unfold PropTrip.ex_key in E.
  exists k. split; [reflexivity|]. split; [exact (BuiltEC2 toy _ _ _ _ _ _ k ex_options_ok E)|]. vm_compute in E. injection E as <-. split; vm_compute; discriminate.
Qed.

Example C106_object_or_items_example : reachable toy ex_map /\ param ex_map KpKty = Some (type_of (k_cls ex_map)) /\
  Forall (fun e => forall f, fst e <> VFloat f) (k_store ex_map) /\ exists k, from_dict toy (kval ex_map) = Ok k.
Proof.
  split; [exact ex_map_reachable|]. split; [vm_compute; reflexivity|]. split; [|eexists; vm_compute; reflexivity].
  apply Forall_forall. intros e HE. vm_compute in HE. repeat (destruct HE as [<-|HE]; [discriminate|]). destruct HE.
Qed.

Example C106_header_example : exists k c, PropTrip.ex_key = Ok k /\ portable toy k /\
  core_init toy (Args VNone (VDict [(VInt 1, VInt (-7)); (VStr (bs "static_key"), kval k)]) (VBytes []) (VBytes []) VNone VNone false true) = Ok c /\
  last_value (spells (Cls FHdr (-2)) (bs "STATIC_KEY")) [(VInt 1, VInt (-7)); (VStr (bs "static_key"), kval k)] (kval k) /\
  In (Cls FHdr (-2), bs "STATIC_KEY") (registered FHdr).
Proof.
  destruct C106_example as (k & HE & HB & _). pose proof (built_portable toy k HB) as HP. destruct (core_init toy (Args VNone (VDict [(VInt 1, VInt (-7)); (VStr (bs "static_key"), kval k)]) (VBytes []) (VBytes []) VNone VNone false true)) as [c|] eqn:E.
  - exists k, c. split; [exact HE|]. split; [exact HP|]. split; [exact E|]. split; [|cbn; auto 20].
    exists [(VInt 1, VInt (-7))], (VStr (bs "static_key")), []. split; [reflexivity|]. split; [vm_compute; reflexivity|]. intros k' v' [].
  - vm_compute in HE. injection HE as <-. vm_compute in E. discriminate.
Qed.
