(** Which exceptions decrypting a message with recipients can raise (C92). *)
From Coq Require Import NArith ZArith Bool String Lia.
From Coq Require Import Init.Byte List.
From Verif Require Import Bytes Value ValueProofs Cbor CborProofs Registry RegistryProofs Crypto SpecCrypto Keys Algorithms Headers Messages Recipients
  SpecKeys SpecHdr SpecStruct SpecAlg SpecAccept SpecCheck SpecMsg SpecRcpt SpecRcptTrip SpecCheck2 KeyProofs KeyProofs2 KeyProofs3 KeyProofs4
  DataProofs HdrProofs HdrProofs2 RcptProofs RcptProofs2 StructProofs AcceptProofs CheckProofs.
Import ListNotations.
Local Open Scope result_scope.

(** ** The encoder *)

Lemma mapM_err : forall A B (f : A -> result B) l x, mapM f l = Err x -> exists a, In a l /\ f a = Err x.
Proof.
  intros A B f l x. induction l as [|a l IH]; intros H; cbn [mapM] in H; [discriminate|].
  apply bind_err_inv in H as [H|(b & _ & H)]; [exists a; cbn; auto|]. apply bind_err_inv in H as [H|(bs & _ & H)]; [|discriminate].
  destruct (IH H) as (a' & HI & HA). exists a'. cbn. auto.
Qed.

Lemma contains_here : forall f v, f v = true -> contains f v = true.
Proof. intros f v H. destruct v; cbn [contains]; rewrite H; reflexivity. Qed.

Definition lower_trouble (h : hook) (v : pyval) (x : exn) : Prop :=
  match h with
  | HNone => x = CBOREncodeTypeError /\ contains (fun w => is_break w || is_attr_class w || is_key_object w) v = true
  | HIdent => (x = AttributeError /\ contains is_key_object v = true) \/ (x = CBOREncodeTypeError /\ contains is_break v = true)
  | HMsg _ => True
  end.

Lemma trouble_up : forall h v w x, (forall f, contains f v = true -> contains f w = true) -> lower_trouble h v x -> lower_trouble h w x.
Proof. intros h v w x H HT. destruct h; cbn [lower_trouble] in *; intuition. Qed.

Lemma lower_err : forall h v x, lower cls_fullname h v = Err x -> lower_trouble h v x.
Proof.
  intros h. induction v as [|b|z|f|n| | |b|b|l HF|l HF|d HF|t v IH|t v IH|c|k s e HS HE] using pyval_ind'; intros x H; cbn [lower] in H; try discriminate.
  - injection H as <-. destruct h; cbn [lower_trouble]; auto; right; auto.
  - apply bind_err_inv in H as [H|(? & _ & H)]; [|discriminate]. apply mapM_err in H as (a & HI & HA). rewrite Forall_forall in HF.
    eapply trouble_up; [|apply (HF a HI); exact HA]. intros f Hf. cbn [contains]. apply orb_true_iff. right. apply existsb_exists. eauto.
  - apply bind_err_inv in H as [H|(? & _ & H)]; [|discriminate]. apply mapM_err in H as (a & HI & HA). rewrite Forall_forall in HF.
    eapply trouble_up; [|apply (HF a HI); exact HA]. intros f Hf. cbn [contains]. apply orb_true_iff. right. apply existsb_exists. eauto.
  - apply bind_err_inv in H as [H|(? & _ & H)]; [|discriminate]. rewrite lower_pairs_mapM in H. apply mapM_err in H as ([a b] & HI & HA). rewrite Forall_forall in HF.
    destruct (HF _ HI) as [H1 H2]. cbn [fst snd] in *. unfold lower_pair in HA.
    assert (HU : forall f, contains f a = true \/ contains f b = true -> contains f (VDict d) = true).
    { intros f Hf. cbn [contains]. apply orb_true_iff. right. apply existsb_exists. exists (a, b). split; [exact HI|]. apply orb_true_iff. exact Hf. }
    apply bind_err_inv in HA as [HA|(? & _ & HA)]; [eapply trouble_up; [|apply H1; exact HA]; auto|].
    apply bind_err_inv in HA as [HA|(? & _ & HA)]; [|discriminate]. eapply trouble_up; [|apply H2; exact HA]. auto.
  - apply bind_err_inv in H as [H|(? & _ & H)]; [|discriminate]. eapply trouble_up; [|apply IH; exact H]. intros f Hf. cbn [contains]. rewrite Hf. apply orb_true_r.
  - apply bind_err_inv in H as [H|(? & _ & H)]; [|discriminate]. eapply trouble_up; [|apply IH; exact H]. intros f Hf. cbn [contains]. rewrite Hf. apply orb_true_r.
  - destruct h; cbn [lower_class] in H; try discriminate; [injection H as <-; split; reflexivity|cbn [lower_trouble]; exact I].
  - destruct h; cbn [lower_trouble]; [| |exact I]; injection H as <-; [split; reflexivity|left; split; reflexivity].
Qed.

Lemma dumps_err : forall h v x, dumps cls_fullname h v = Err x -> lower_trouble h v x \/ x = OverflowError.
Proof.
  intros h v x H. unfold dumps in H. apply bind_err_inv in H as [H|(c & _ & H)]; [left; apply lower_err; exact H|].
  destruct (wfc c); [discriminate|]. injection H as <-. auto.
Qed.

Lemma in_opt : forall v w, In v (if veqb w (VBytes []) then [] else [w]) -> v = w /\ w <> VBytes [].
Proof.
  intros v w H. destruct (veqb w (VBytes [])) eqn:E; [destruct H|]. destruct H as [<-|[]]. split; [reflexivity|].
  intros ->. discriminate.
Qed.

Lemma kdf_encode_err : forall c t k x, get_kdf_context c t = Ok k -> (exists z, t = alg z) -> kdf_encode k = Err x -> derivation_failure c x.
Proof.
  intros c t k x HK (z & ->) H. unfold get_kdf_context in HK.
  apply bind_ok in HK as (ui & H1 & HK). apply bind_ok in HK as (un & H2 & HK). apply bind_ok in HK as (uo & H3 & HK).
  apply bind_ok in HK as (vi & H4 & HK). apply bind_ok in HK as (vn & H5 & HK). apply bind_ok in HK as (vo & H6 & HK).
  apply bind_ok in HK as (len & _ & HK). injection HK as <-. unfold kdf_encode in H. cbn [kc_alg kc_u kc_v kc_len kc_protected kc_pub_other kc_priv] in H.
  change (identifier_of (alg z)) with (Some z) in H. cbv beta iota in H. apply bind_err_inv in H as [H|(prot & _ & H)].
  - apply dumps_err in H as [[[-> H]|[-> H]]| ->]; unfold derivation_failure; auto 6.
  - cbv zeta in H. cbn [app] in H. unfold dumps_plain in H.
    match type of H with dumps _ _ (VList (_ :: _ :: _ :: VList (_ :: _ :: ?o1) :: ?o2)) = _ => set (l1 := o1) in H; set (l2 := o2) in H end.
    apply dumps_err in H as [[-> H]| ->]; unfold derivation_failure; [|auto 6]. right. right. left. split; [reflexivity|].
    assert (HL1 : forall v, In v l1 -> derivation_input c v).
    { intros v HV. apply in_opt in HV as [-> HV]. unfold dget_or in *. destruct (dget (local c) SuppPubOther) as [w|] eqn:E; [|congruence].
      right. exists SuppPubOther. cbn. auto. }
    assert (HL2 : forall v, In v l2 -> derivation_input c v).
    { intros v HV. apply in_opt in HV as [-> HV]. unfold dget_or in *. destruct (dget (local c) SuppPrivOther) as [w|] eqn:E; [|congruence].
      right. exists SuppPrivOther. cbn. auto. }
    assert (HP : forall h v, In h [PartyUID; PartyUNonce; PartyUOther; PartyVID; PartyVNonce; PartyVOther] -> get_attr c h = Ok v -> derivation_input c v).
    { intros h v HI HG. left. eauto. }
    cbn [contains existsb is_break is_attr_class is_key_object orb] in H.
    repeat (apply orb_true_iff in H; destruct H as [H|H]); try discriminate; eauto.
    + exists ui. split; [apply (HP PartyUID); cbn; auto|exact H].
    + exists un. split; [apply (HP PartyUNonce); cbn; auto|exact H].
    + exists uo. split; [apply (HP PartyUOther); cbn; auto|exact H].
    + exists vi. split; [apply (HP PartyVID); cbn; auto 8|exact H].
    + exists vn. split; [apply (HP PartyVNonce); cbn; auto 8|exact H].
    + exists vo. split; [apply (HP PartyVOther); cbn; auto 8|exact H].
    + apply existsb_exists in H as (v & HI & H). eauto.
    + apply existsb_exists in H as (v & HI & H). eauto.
Qed.

(** ** Derived symmetric keys *)

Lemma from_id_err : forall f v x, from_id f false v = Err x -> x = CoseException.
Proof.
  intros f. induction v as [|b|z|g|n| | |b|b|l HF|l HF|d HF|t v IH|t v IH|c|k s e HS HE] using pyval_ind'; intros x H; cbn [from_id] in H;
    try congruence; try (destruct (dget _ _); congruence).
  apply bind_err_inv in H as [H|(? & _ & H)]; [|discriminate]. apply mapM_err in H as (a & HI & HA). rewrite Forall_forall in HF. eauto.
Qed.

Definition used_options : list dict :=
  [[]; [(VClass KpKeyOps, VList [DecryptOp])]; [(VClass KpKeyOps, VList [DecryptOp; UnwrapOp])]; [(VClass KpKeyOps, VList [UnwrapOp; DecryptOp])]].

Lemma derived_common : forall t o, In o used_options ->
  common_init KSym (VDict ((VClass KpAlg, t) :: o)) true =
  (t' <- from_id FAlg false t ;; Ok (Key KSym ((VClass KpKty, KtySymmetric) :: (VClass KpAlg, t') :: o) [])).
Proof.
  intros t o HO. unfold common_init. cbn [opt_items bind transform_params].
  assert (E : from_id (param_fam KSym) true (VClass KpAlg) = Ok (VClass KpAlg)) by (vm_compute; reflexivity). rewrite E. cbn [bind]. clear E.
  change (parse_kp (VClass KpAlg) t) with (from_id FAlg false t). destruct (from_id FAlg false t) as [t'|x]; [|reflexivity]. cbn [bind].
  repeat (destruct HO as [<-|HO]; [vm_compute; reflexivity|]). destruct HO.
Qed.

Record derived (b : bytes) (t' : pyval) (o : dict) (k : key) : Prop := Derived {
  dv_key : k = Key KSym ((VClass KpKty, KtySymmetric) :: (VClass KpAlg, t') :: o ++ [(VClass SymKpK, VBytes b)]) [];
  dv_len : In (length b) [16; 24; 32] }.

Lemma derived_ok : forall b t o k, In o used_options -> sym_init (VBytes b) (VDict ((VClass KpAlg, t) :: o)) true = Ok k ->
  exists t', from_id FAlg false t = Ok t' /\ derived b t' o k.
Proof.
  intros b t o k HO H. unfold sym_init in H. rewrite (derived_common t o HO) in H. destruct (from_id FAlg false t) as [t'|x]; [|discriminate].
  cbn [bind] in H. destruct (veqb _ _); [discriminate|]. exists t'. split; [reflexivity|]. unfold set_k in H. destruct (existsb _ _) eqn:E; [|discriminate].
  injection H as <-. split.
  - repeat (destruct HO as [<-|HO]; [reflexivity|]). destruct HO.
  - apply existsb_exists in E as (n & HI & E). apply Nat.eqb_eq in E. rewrite E. exact HI.
Qed.

Lemma derived_err : forall b t o x, In o used_options -> sym_init (VBytes b) (VDict ((VClass KpAlg, t) :: o)) true = Err x -> is_cose_exception x = true.
Proof.
  intros b t o x HO H. unfold sym_init in H. rewrite (derived_common t o HO) in H. destruct (from_id FAlg false t) as [t'|y] eqn:E.
  - cbn [bind] in H. destruct (veqb _ _); [injection H as <-; reflexivity|]. unfold set_k in H. destruct (existsb _ _); [discriminate|]. injection H as <-. reflexivity.
  - cbn [bind] in H. injection H as <-. apply from_id_err in E. subst y. reflexivity.
Qed.

Lemma derived_typed : forall b c o k, In o used_options -> derived b (VClass c) o k -> typed k.
Proof.
  intros b c o k HO [-> HL]. unfold typed, param. cbn [k_store k_extra k_cls].
  repeat (destruct HO as [<-|HO]; [repeat split;
    [intros v H; vm_compute in H; injection H as <-; eauto
    |intros v H; vm_compute in H; first [discriminate|injection H as <-; eauto]
    |intros v H; vm_compute in H; discriminate
    |intros e []
    |exists b; split; [reflexivity|exact HL]]|]). destruct HO.
Qed.

Lemma from_id_class : forall f c t, from_id f false (VClass c) = Ok t -> exists c', t = VClass c'.
Proof.
  intros f c t H. cbn [from_id] in H. destruct (dget (registry f) (VInt (c_id c))) as [w|] eqn:E; [|discriminate]. injection H as <-.
  apply registry_get in E as (c' & n & _ & -> & _). eauto.
Qed.

(** ** Keys in headers *)

Lemma from_dict_constructed : forall X v k, from_dict X v = Ok k -> constructed X k.
Proof.
  intros X v k H.
  assert (HD : forall w m k, dispatch_kty X w m = Ok k -> constructed X k).
  { clear. intros w m k H. unfold dispatch_kty in H. destruct (negb _); [discriminate|]. destruct (key_type_lookup _ _) as [[]|]; [| | | |discriminate].
    - unfold sym_from_dict in H. do 2 apply bind_ok in H as (? & _ & H). eapply ConSym. exact H.
    - unfold okp_from_dict in H. do 4 apply bind_ok in H as (? & _ & H). eapply ConOKP. exact H.
    - unfold ec2_from_dict in H. do 5 apply bind_ok in H as (? & _ & H). eapply ConEC2. exact H.
    - unfold rsa_from_dict in H. do 13 apply bind_ok in H as (? & _ & H). eapply ConRSA. exact H. }
  unfold from_dict in H. destruct v; try discriminate.
  all: apply bind_ok in H as ([w|] & _ & H); [eapply HD; exact H|]; apply bind_ok in H as ([w|] & _ & H); [eapply HD; exact H|];
    apply bind_ok in H as ([w|] & _ & H); [eapply HD; exact H|discriminate].
Qed.

Definition key_values (X : crypto) (d : dict) : Prop :=
  forall h v, In h [EphemeralKey; StaticKey] -> dget d h = Some v -> exists k, v = kval k /\ constructed X k.

Lemma parsed_keys : forall X allow d h, parse_items X allow d [] = Ok h -> key_values X h.
Proof.
  intros X allow d h H a v HA HV. destruct a as [| | | | | | | | | | | | | |c|]; try (destruct HA as [HA|[HA|[]]]; discriminate).
  destruct (parse_items_parsed X allow c d [] h H ltac:(discriminate) v HV) as [w HW].
  destruct HA as [HA|[HA|[]]]; injection HA as <-; cbn [parse_value] in HW; apply bind_ok in HW as (k & HK & HW); injection HW as <-;
    exists k; (split; [reflexivity|eapply from_dict_constructed; exact HK]).
Qed.

Lemma received_keys : forall X allow obj c rest, core_from_obj X allow obj = Ok (c, rest) -> key_values X (phdr c) /\ key_values X (uhdr c).
Proof.
  intros X allow obj c rest H. apply core_from_obj_inv in H as (p & u & pl & c0 & -> & HI & _ & EC). rewrite EC. cbn [phdr uhdr with_payload].
  apply core_init_inv in HI as (pd & ud & _ & _ & H1 & H2 & _). split; eapply parsed_keys; eassumption.
Qed.

Lemma get_attr_value : forall c h v, get_attr c h = Ok v -> v = VNone \/ dget (phdr c) h = Some v \/ dget (uhdr c) h = Some v.
Proof.
  intros c h v H. unfold get_attr, get_attr_default in H. cbv zeta in H. destruct (_ && _); [discriminate|]. unfold dget_or in H.
  destruct (negb (is_none match dget (phdr c) h with Some w => w | None => VNone end)); injection H as <-;
    [destruct (dget (phdr c) h)|destruct (dget (uhdr c) h)]; auto.
Qed.

Lemma header_key : forall X c h v, key_values X (phdr c) -> key_values X (uhdr c) -> In h [EphemeralKey; StaticKey] -> get_attr c h = Ok v ->
  v = VNone \/ exists k, v = kval k /\ constructed X k.
Proof. intros X c h v HP HU HI H. destruct (get_attr_value c h v H) as [->|[HV|HV]]; [auto|right; eapply HP|right; eapply HU]; eassumption. Qed.

Lemma constructed_ec2 : forall X k, constructed X k -> k_cls k = KEC2 ->
  filled k EC2KpX /\ filled k EC2KpY /\ exists z, param k EC2KpCurve = Some (VClass (Cls FCrv z)) /\ curve_key_type z = KtyEC2.
Proof.
  intros X k H HC. destruct H as [kv opt allow k H|crv x d opt allow k H|crv x y d opt allow k H|a opt allow k H].
  - apply sym_init_fresh in H. destruct H as [H _]. pose proof (fr_cls _ _ H). congruence.
  - unfold okp_init in H. apply bind_ok in H as (k0 & H0 & H). apply common_init_extra in H0 as [_ HC0]. apply bind_ok in H as (nx & _ & H). apply bind_ok in H as (nn & _ & H).
    destruct nn; [discriminate|]. destruct (is_none crv); [discriminate|]. apply bind_ok in H as (k1 & H1 & H). apply bind_ok in H as (k2 & H2 & H).
    unfold set_crv in H1. apply bind_ok in H1 as (w & _ & H1). destruct w; try discriminate. destruct (veqb _ _); [|discriminate]. injection H1 as <-.
    apply set_unless_put in H2 as [_ ->]. apply set_unless_put in H as [_ ->]. unfold store_set, with_store in *. cbn [k_cls] in *. congruence.
  - pose proof (ec2_typed X _ _ _ _ _ _ _ H) as (HX & HY & _). split; [exact HX|]. split; [exact HY|].
    apply ec2_init_store in H as (k0 & cv & x1 & y1 & y2 & _ & _ & HF & HK & _ & _ & _ & _ & ->). destruct cv as [f z]. exists z.
    assert (f = FCrv).
    { apply from_id_cases in HF as [(c' & n' & HI & _ & E)|[(E & _)|(l0 & l' & _ & E & _)]]; [|discriminate|discriminate].
      injection E as <-. clear -HI. assert (HT : forallb (fun e => match fam_eq_dec (c_fam (fst e)) FCrv with left _ => true | right _ => false end) (registered FCrv) = true) by (vm_compute; reflexivity).
      rewrite forallb_forall in HT. specialize (HT _ HI). cbn [fst c_fam] in HT. destruct (fam_eq_dec f FCrv); [assumption|discriminate]. }
    subst f. split; [|exact HK]. unfold param. cbn [k_store]. rewrite !dget_put_other by discriminate. apply dget_dset_same, keyeq_refl.
  - apply rsa_typed in H as (H & _). congruence.
Qed.

(** ** Key derivation *)

Definition attr_exns : list exn := [AttributeError; ValueError; TypeError].

Lemma prop_get_err : forall k p x, prop_get k p = Err x -> is_cose_exception x = true \/ In x attr_exns.
Proof.
  intros k p x H. rewrite prop_get_place in H. destruct (place (k_cls k) p) as [q|].
  - destruct (param k q); [discriminate|]. destruct p; cbn [absent_value] in H; try discriminate; injection H as <-; left; reflexivity.
  - apply extra_get_err in H. subst x. right. cbn. auto.
Qed.
Lemma as_bytes_exn : forall v x, as_bytes v = Err x -> In x attr_exns.
Proof. intros v x H. apply as_bytes_err in H as [-> _]. cbn. auto. Qed.
Lemma attr_hex_err : forall k p x, attr_hex k p = Err x -> is_cose_exception x = true \/ In x attr_exns.
Proof.
  intros k p x H. unfold attr_hex in H. apply bind_err_inv in H as [H|(v & _ & H)]; [eapply prop_get_err; exact H|].
  apply bind_err_inv in H as [H|(b & _ & H)]; [right; eapply as_bytes_exn; exact H|]. destruct b; [|discriminate]. injection H as <-. right. cbn. auto.
Qed.
Lemma attr_int_err : forall k p x, attr_int k p = Err x -> is_cose_exception x = true \/ In x attr_exns.
Proof.
  intros k p x H. unfold attr_int in H. apply bind_err_inv in H as [H|(v & _ & H)]; [eapply prop_get_err; exact H|].
  apply bind_err_inv in H as [H|(b & _ & H)]; [right; eapply as_bytes_exn; exact H|discriminate].
Qed.

Definition agree_algs : list Z := [-25; -26; -27; -28; -29; -30; -31; -32; -33; -34]%Z.

Lemma agree_hash : forall z, In z agree_algs -> exists h, kex_hash (alg z) = Ok h.
Proof. intros z H. repeat (destruct H as [<-|H]; [eexists; reflexivity|]). destruct H. Qed.

Lemma kval_inj : forall p q, kval p = kval q -> p = q.
Proof. intros [a b c] [a' b' c'] H. injection H as -> -> ->. reflexivity. Qed.

Section Decrypt.
Variable X : crypto.

Definition kek_trouble (rc : core) (z : Z) (k : key) (t : pyval) (x : exn) : Prop :=
  is_cose_exception x = true \/ cek_failure X x \/ (x = AttributeError /\ forall n, get_key_length t <> Ok n) \/
  (In x attr_exns /\ ~ suits z k) \/ (In x attr_exns /\ ~ sender_suits rc z) \/ derivation_failure rc x.

Lemma key_length_class : forall t n, get_key_length t = Ok n -> exists z, t = alg z.
Proof.
  intros t n H. unfold get_key_length, alg_kind in H. destruct t as [| | | | | | | | | | | | | |[f z]|]; try discriminate. destruct f; try discriminate. exists z. reflexivity.
Qed.

Lemma agree_kek_err : forall rc z t v k x, In z agree_algs -> get_attr rc (sender_header z) = Ok v ->
  v = VNone \/ (exists p, v = kval p /\ constructed X p) -> agree_kek X rc t v (Some k) (alg z) = Err x -> kek_trouble rc z k t x.
Proof.
  intros rc z t v k x HZ HG HV H. unfold agree_kek in H. destruct (agree_hash z HZ) as [h Hh]. rewrite Hh in H. cbn [bind] in H.
  destruct HV as [->|(p & -> & HC)].
  { cbn in H. injection H as <-. do 4 right. left. split; [cbn; auto|]. intros (p & HP & _). rewrite HG in HP. discriminate. }
  assert (HS : k_cls p <> KEC2 -> ~ sender_suits rc z).
  { intros HN (q & HQ & HK & _). rewrite HG in HQ. assert (E : kval p = kval q) by congruence. apply kval_inj in E. subst q. contradiction. }
  assert (HD : k_cls p <> KEC2 \/ k_cls p = KEC2) by (destruct (k_cls p); first [right; reflexivity|left; discriminate]).
  assert (HP : peer (kval p) = Ok p) by (destruct p; reflexivity). rewrite HP in H. cbn [bind] in H.
  assert (HF : forall y, is_cose_exception y = true \/ In y attr_exns -> k_cls p <> KEC2 -> kek_trouble rc z k t y).
  { intros y [HY|HY] HN; [left; exact HY|]. do 4 right. left. split; [exact HY|]. apply HS. exact HN. }
  apply bind_err_inv in H as [H|(crv & HCRV & H)].
  { destruct HD as [HD|HD]; [apply HF; [eapply prop_get_err; exact H|exact HD]|].
    destruct (constructed_ec2 X p HC HD) as (_ & _ & cz & HZC & _). rewrite prop_get_place, HD in H. cbn [place crv_prop] in H. rewrite HZC in H. discriminate. }
  apply bind_err_inv in H as [H|(kx & HK & H)].
  { unfold get_kdf_context in H. do 6 (apply bind_err_inv in H as [H|(? & _ & H)]; [left; apply get_attr_err in H; subst x; reflexivity|]).
    apply bind_err_inv in H as [H|(? & _ & H)]; [|discriminate]. right. right. left. split; [|intros n Hn; congruence].
    clear -H. unfold get_key_length, kw_length in H. repeat match type of H with context [match ?u with _ => _ end] => destruct u; try discriminate end; congruence. }
  cbn [bind] in H. unfold derive_kek in H. rewrite Hh in H. cbn [bind] in H. apply bind_err_inv in H as [H|(s & _ & H)].
  - unfold ecdh in H. apply bind_err_inv in H as [H|(d & _ & H)].
    { destruct (attr_hex_err _ _ _ H) as [HE|HE]; [left; exact HE|]. do 3 right. left. split; [exact HE|]. intros (_ & _ & HN). destruct (HN HZ) as [HN1 HN2].
      destruct (filled_hex k PD EC2KpD) as [n Hn]; [rewrite HN1; reflexivity|exact HN2|]. congruence. }
    apply bind_err_inv in H as [H|(ax & _ & H)].
    { destruct HD as [HD|HD]; [apply HF; [eapply attr_hex_err; exact H|exact HD]|]. destruct (constructed_ec2 X p HC HD) as (HX & _).
      destruct (filled_hex p PX EC2KpX) as [n Hn]; [rewrite HD; reflexivity|exact HX|]. congruence. }
    apply bind_err_inv in H as [H|(ay & _ & H)].
    { destruct HD as [HD|HD]; [apply HF; [eapply attr_hex_err; exact H|exact HD]|]. destruct (constructed_ec2 X p HC HD) as (_ & HY & _).
      destruct (filled_hex p PY EC2KpY) as [n Hn]; [rewrite HD; reflexivity|exact HY|]. congruence. }
    destruct HD as [HD|HD].
    { destruct crv as [| | | | | | | | | | | | | |[f cz]|]; try (injection H as <-; apply HF; [right; cbn; auto|exact HD]).
      destruct f; try (injection H as <-; apply HF; [right; cbn; auto|exact HD]).
      destruct (veqb _ _); [right; left; right; right; left; eauto|]. injection H as <-. apply HF; [right; cbn; auto|exact HD]. }
    destruct (constructed_ec2 X p HC HD) as (_ & _ & cz & HZC & HKT). rewrite prop_get_place, HD in HCRV. cbn [place crv_prop] in HCRV. rewrite HZC in HCRV.
    injection HCRV as <-. rewrite HKT, veqb_refl in H. right. left. right. right. left. eauto.
  - apply bind_err_inv in H as [H|(i & _ & H)].
    + do 5 right. eapply kdf_encode_err; [exact HK| |exact H]. unfold get_kdf_context in HK.
      do 6 apply bind_ok in HK as (? & _ & HK). apply bind_ok in HK as (len & HL & HK). eapply key_length_class. exact HL.
    + right. left. right. right. right. eauto.
Qed.

(** ** Checking keys *)

Lemma key_verify_some : forall k c a ops x, (forall v, param k KpAlg = Some v -> exists a, v = VClass a) ->
  (forall v, param k KpKeyOps = Some v -> exists l, v = VList l) -> key_verify k c (alg a) (map VClass ops) = Err x -> is_cose_exception x = true.
Proof.
  intros k c a ops x HA HO H. unfold key_verify in H. destruct (negb _); [injection H as <-; reflexivity|].
  apply bind_err_inv in H as [H|(? & _ & H)].
  - cbv zeta in H. unfold param, dget_or in *. destruct (dget (k_store k) (VClass KpAlg)) as [v|]; [|discriminate].
    destruct (HA v eq_refl) as [c0 ->]. cbn [is_none identifier_of alg] in H. destruct (Z.eqb _ _); [discriminate|]. injection H as <-. reflexivity.
  - cbv zeta in H. unfold param, dget_or in *. destruct (dget (k_store k) (VClass KpKeyOps)) as [v|].
    + destruct (HO v eq_refl) as [l ->]. cbn [py_len bind] in H. destruct (Nat.eqb _ _); [discriminate|].
      rewrite any_in_list in H. cbn [bind] in H. destruct (existsb _ _); [discriminate|]. injection H as <-. reflexivity.
    + cbn [py_len bind] in H. discriminate.
Qed.

Lemma derived_verify : forall b z o k ops, In o used_options -> derived b (alg z) o k -> In ops [[UnwrapOp; DecryptOp]] ->
  o <> [] -> key_verify k KSym (alg z) ops = Ok tt.
Proof.
  intros b z o k ops HO [-> _] HI HN. destruct HI as [<-|[]]. unfold key_verify. cbn [k_cls k_store].
  destruct HO as [<-|HO]; [congruence|]. destruct HO as [<-|HO]. { cbn. rewrite Z.eqb_refl. reflexivity. }
  repeat (destruct HO as [<-|HO]; [cbn; rewrite Z.eqb_refl; reflexivity|]). destruct HO.
Qed.

(** ** The decryption with the derived key *)

Definition final_trouble (c : core) (x : exn) : Prop :=
  is_cose_exception x = true \/ aead_failure X x \/ (x = AttributeError /\ ~ declares c enc_algorithm) \/
  (x = TypeError /\ payload c = None) \/ (x = OverflowError /\ oversized (parts c None)).

Lemma derived_decrypt_err : forall c t b o k x, encodable c -> byte_ivs c -> get_attr c Algorithm = Ok t -> In o used_options ->
  sym_init (VBytes b) (VDict ((VClass KpAlg, t) :: o)) true = Ok k -> enc_decrypt X "Encrypt" (with_key c (Some k)) = Err x -> final_trouble c x.
Proof.
  intros c t b o k x HE HI HT HO HK H. destruct (derived_ok b t o k HO HK) as (t' & HT' & HD).
  assert (HB : param k KpBaseIV = None) by (destruct HD as [-> _]; repeat (destruct HO as [<-|HO]; [reflexivity|]); destruct HO).
  pose proof (from_id_cases _ _ _ _ HT') as [(c' & n' & _ & _ & ->)|[(E & _)|(l0 & l' & -> & -> & _)]]; [|discriminate|].
  - pose proof (derived_typed _ _ _ _ HO HD) as HTy.
    destruct (enc_decrypt_err X "Encrypt" (with_key c (Some k)) k x eq_refl HE HI eq_refl HTy H) as [HX|HX]; [left; exact HX|]. right.
    destruct HX as [HX|[HX|[[-> HX]|HX]]]; [left; exact HX|right; left; exact HX| |right; right; right; exact HX].
    destruct HX as [HX|(_ & _ & v & HV)]; [right; right; left; split; [reflexivity|exact HX]|]. rewrite HB in HV. discriminate.
  - unfold enc_decrypt in H. change (get_attr (with_key c (Some k)) Algorithm) with (get_attr c Algorithm) in H. rewrite HT in H. cbn [bind] in H.
    apply bind_err_inv in H as [H|(n & HN & H)].
    { unfold get_nonce in H. apply bind_err_inv in H as [H|(iv & _ & H)]; [left; apply get_attr_err in H; subst x; reflexivity|].
      destruct (is_none iv); [|discriminate]. cbn [ckey with_key] in H. rewrite prop_get_place in H. cbn [place bytes_prop absent_value] in H.
      rewrite HB in H. cbn in H. injection H as <-. left. reflexivity. }
    cbn [ckey with_key] in H. apply bind_err_inv in H as [H|(u & HV & H)].
    + right. right. left. split.
      * destruct HD as [-> _]. repeat (destruct HO as [<-|HO]; [cbn in H; congruence|]). destruct HO.
      * intros (z & HZ & _). rewrite HT in HZ. discriminate.
    + exfalso. destruct HD as [-> _]. repeat (destruct HO as [<-|HO]; [cbn in HV; discriminate|]). destruct HO.
Qed.

(** ** The content key *)

Definition cek_trouble (rc : core) (z : Z) (k : key) (x : exn) : Prop :=
  is_cose_exception x = true \/ cek_failure X x \/ (x = TypeError /\ payload rc = None) \/ (In x attr_exns /\ ~ suits z k).

Lemma kw_decrypt_err : forall id ctx rc k z x, ckey rc = Some k -> typed k -> get_attr rc Algorithm = Ok (alg z) -> In z [-3; -4; -5; -40; -41; -42]%Z ->
  rcpt_decrypt X (Rcpt id RKeyWrap rc ctx []) = Err x -> cek_trouble rc z k x.
Proof.
  intros id ctx rc k z x HK HT HA HZ H. cbn [rcpt_decrypt] in H. rewrite HA in H. cbn [bind] in H. rewrite HK in H.
  assert (HC : (alg_in (alg z) aes_kw = Ok true /\ In z [-3; -4; -5]%Z) \/ (alg_in (alg z) aes_kw = Ok false /\ alg_in (alg z) oaep = Ok true /\ In z [-40; -41; -42]%Z)).
  { repeat (destruct HZ as [<-|HZ]; [first [left; split; [reflexivity|cbn; auto]|right; split; [reflexivity|split; [reflexivity|cbn; auto]]]|]). destruct HZ. }
  destruct HC as [[E HZ']|(E & E' & HZ')]; rewrite E in H; cbn [bind] in H.
  - apply bind_err_inv in H as [H|(kb & HKB & H)].
    { destruct (prop_get_err _ _ _ H) as [HX|HX]; [left; exact HX|]. do 3 right. split; [exact HX|]. intros (HS & _). destruct (HS HZ') as (HS1 & b & HS2 & _).
      rewrite prop_get_place, HS1 in H. cbn [place] in H. rewrite HS2 in H. discriminate. }
    destruct (k_cls k) eqn:EK; try (rewrite (foreign_property k PK HT) in HKB by (rewrite EK; reflexivity); discriminate).
    destruct (typed_secret k HT EK) as (b & HB & HL). rewrite HKB in HB. injection HB as ->.
    unfold sym_with in H. apply bind_err_inv in H as [H|(kek & HKE & H)]; [left; eapply derived_err; [|exact H]; cbn; auto|].
    apply derived_ok in HKE as (t' & HT' & HD); [|cbn; auto].
    assert (t' = alg z) by (clear -HT' HZ'; repeat (destruct HZ' as [<-|HZ']; [vm_compute in HT'; injection HT' as <-; reflexivity|]); destruct HZ'). subst t'.
    rewrite (derived_verify b z [(VClass KpKeyOps, VList [DecryptOp; UnwrapOp])] kek [UnwrapOp; DecryptOp]) in H; [|cbn; auto|exact HD|cbn; auto|discriminate]. cbn [bind] in H.
    assert (HKK : prop_get kek PK = Ok (VBytes b)) by (destruct HD as [-> _]; reflexivity).
    unfold alg_key_unwrap in H.
    assert (HKD : exists len, alg_kind (alg z) = Some (AKw len) /\ In (z, len) [((-3)%Z, 16); ((-4)%Z, 24); ((-5)%Z, 32)]).
    { clear -HZ'. repeat (destruct HZ' as [<-|HZ']; [eexists; split; [reflexivity|cbn; auto]|]). destruct HZ'. }
    destruct HKD as (len & HKD & HLen). rewrite HKD in H. unfold kw_key in H. rewrite HKK in H. cbn [bind py_len] in H.
    destruct (Nat.eqb len (length b)) eqn:EL.
    + cbn [as_bytes bind] in H. destruct (payload rc) as [pl|] eqn:EP; cbn [vopt as_bytes bind] in H.
      * right. left. left. eauto.
      * injection H as <-. right. right. left. auto.
    + cbn [bind] in H. injection H as <-. do 3 right. split; [cbn; auto|]. intros (HS & _). destruct (HS HZ') as (_ & b' & HB' & HI').
      rewrite prop_get_place, EK in HKB. cbn [place] in HKB. rewrite HB' in HKB. injection HKB as ->. apply Nat.eqb_neq in EL. apply EL. clear -HLen HI'.
      cbn [In] in HLen, HI'. intuition congruence.
  - rewrite E' in H. cbn [bind] in H. apply bind_err_inv in H as [H|(u & HV & H)].
    { left. destruct HT as (HT1 & HT2 & _). eapply (key_verify_some k KRSA z [Cls FOps 6; Cls FOps 4]); eassumption. }
    apply key_verify_cls in HV. unfold alg_key_unwrap in H.
    assert (HKD : exists h, alg_kind (alg z) = Some (AOaep h)).
    { clear -HZ'. repeat (destruct HZ' as [<-|HZ']; [eexists; reflexivity|]). destruct HZ'. }
    destruct HKD as (h & HKD). rewrite HKD in H. apply bind_err_inv in H as [H|(q & _ & H)].
    + assert (HX : is_cose_exception x = true \/ In x attr_exns).
      { unfold rsa_private_numbers, rsa_public_numbers in H. apply bind_err_inv in H as [H|(? & _ & H)].
        - apply bind_err_inv in H as [H|(? & _ & H)]; [eapply attr_int_err; exact H|]. apply bind_err_inv in H as [H|(? & _ & H)]; [eapply attr_int_err; exact H|discriminate].
        - repeat (apply bind_err_inv in H as [H|(? & _ & H)]; [eapply attr_int_err; exact H|]). discriminate. }
      destruct HX as [HX|HX]; [left; exact HX|]. do 3 right. split; [exact HX|]. intros (_ & HS & _). destruct (HS HZ') as [_ HN].
      assert (HI : forall p q, place KRSA p = Some q -> absent_value p = Ok (VBytes []) -> (forall v, param k q = Some v -> exists b, v = VBytes b) -> exists n, attr_int k p = Ok n).
      { intros p q HP HAb HQ. unfold attr_int. rewrite prop_get_place, HV, HP. destruct (param k q) as [v|] eqn:EQ; [destruct (HQ v eq_refl) as [b ->]|rewrite HAb]; cbn [bind as_bytes]; eauto. }
      destruct HT as (_ & _ & _ & _ & HT). rewrite HV in HT. destruct HT as (nn & ne & HN1 & HN2).
      unfold rsa_private_numbers, rsa_public_numbers in H.
      destruct (HI PE RSAKpE eq_refl eq_refl) as [e1 H1]; [intros v Hv; rewrite HN2 in Hv; injection Hv as <-; eauto|].
      destruct (HI PN RSAKpN eq_refl eq_refl) as [e2 H2]; [intros v Hv; rewrite HN1 in Hv; injection Hv as <-; eauto|].
      destruct (HI PP RSAKpP eq_refl eq_refl) as [e3 H3]; [intros v Hv; eapply HN; [|exact Hv]; cbn; auto 8|].
      destruct (HI PQ RSAKpQ eq_refl eq_refl) as [e4 H4]; [intros v Hv; eapply HN; [|exact Hv]; cbn; auto 8|].
      destruct (HI PD RSAKpD eq_refl eq_refl) as [e5 H5]; [intros v Hv; eapply HN; [|exact Hv]; cbn; auto 8|].
      destruct (HI PDP RSAKpDP eq_refl eq_refl) as [e6 H6]; [intros v Hv; eapply HN; [|exact Hv]; cbn; auto 8|].
      destruct (HI PDQ RSAKpDQ eq_refl eq_refl) as [e7 H7]; [intros v Hv; eapply HN; [|exact Hv]; cbn; auto 8|].
      destruct (HI PQInv RSAKpQInv eq_refl eq_refl) as [e8 H8]; [intros v Hv; eapply HN; [|exact Hv]; cbn; auto 8|].
      rewrite H1, H2, H3, H4, H5, H6, H7, H8 in H. discriminate.
    + destruct (payload rc) as [pl|] eqn:EP; cbn [vopt as_bytes bind] in H.
      * right. left. right. left. eauto.
      * injection H as <-. right. right. left. auto.
Qed.

Lemma kakw_decrypt_err : forall rc k z x, law_hkdf_len X -> ckey rc = Some k -> get_attr rc Algorithm = Ok (alg z) -> In z [-29; -30; -31; -32; -33; -34]%Z ->
  key_values X (phdr rc) -> key_values X (uhdr rc) -> kakw_decrypt X rc = Err x ->
  cek_trouble rc z k x \/ (In x attr_exns /\ ~ sender_suits rc z) \/ derivation_failure rc x.
Proof.
  intros rc k z x HL HK HA HZ HP HU H. unfold kakw_decrypt in H. rewrite HA in H. cbn [bind] in H.
  assert (HS : (es <- alg_in (alg z) es_kw ;;
     (if es : bool then get_attr rc EphemeralKey
         else ss <- alg_in (alg z) ss_kw ;;
              if ss : bool then get_attr rc StaticKey else Err AttributeError)) = get_attr rc (sender_header z) /\ In (sender_header z) [EphemeralKey; StaticKey] /\
     exists kw len, get_key_wrap_func (alg z) = Ok (alg kw) /\ alg_kind (alg kw) = Some (AKw len)).
  { clear -HZ. repeat (destruct HZ as [<-|HZ]; [split; [reflexivity|split; [cbn; auto|do 2 eexists; split; reflexivity]]|]). destruct HZ. }
  destruct HS as (HS & HSI & kw & len & HW & HKD).
  assert (HZA : In z agree_algs) by (clear -HZ; cbn in *; tauto).
  apply bind_err_inv in H as [H|(es & HES & H)]; [rewrite H in HS; left; left; symmetry in HS; apply get_attr_err in HS; subst x; reflexivity|].
  rewrite HES in HS. cbn [bind] in HS. rewrite HS in H. apply bind_err_inv in H as [H|(v & HV & H)]; [left; left; apply get_attr_err in H; subst x; reflexivity|].
  rewrite HW in H. cbn [bind] in H. rewrite HK in H. apply bind_err_inv in H as [H|(kb & HKB & H)].
  { apply (agree_kek_err rc z) in H; [|exact HZA|exact HV|eapply header_key; eassumption].
    destruct H as [H|[H|[[_ H]|[H|[H|H]]]]]; unfold cek_trouble; auto 6. exfalso. apply (H len). unfold get_key_length. rewrite HKD. reflexivity. }
  unfold sym_with in H. apply bind_err_inv in H as [H|(kek & HKE & H)]; [left; left; eapply derived_err; [|exact H]; cbn; auto|].
  apply derived_ok in HKE as (t' & HT' & HD); [|cbn; auto].
  assert (t' = alg z) by (clear -HT' HZ; repeat (destruct HZ as [<-|HZ]; [vm_compute in HT'; injection HT' as <-; reflexivity|]); destruct HZ). subst t'.
  rewrite (derived_verify kb z [(VClass KpKeyOps, VList [UnwrapOp; DecryptOp])] kek [UnwrapOp; DecryptOp]) in H; [|cbn; auto|exact HD|cbn; auto|discriminate]. cbn [bind] in H.
  assert (HKK : prop_get kek PK = Ok (VBytes kb)) by (destruct HD as [-> _]; reflexivity).
  assert (HLen : length kb = len).
  { unfold agree_kek in HKB. do 3 apply bind_ok in HKB as (? & _ & HKB). apply bind_ok in HKB as (kx & HKX & HKB). cbn [bind] in HKB. unfold derive_kek in HKB.
    do 3 apply bind_ok in HKB as (? & _ & HKB). apply HL in HKB. rewrite HKB. unfold get_kdf_context in HKX. do 6 apply bind_ok in HKX as (? & _ & HKX).
    unfold get_key_length in HKX. rewrite HKD in HKX. cbn [bind] in HKX. injection HKX as <-. reflexivity. }
  unfold alg_key_unwrap in H. rewrite HKD in H. unfold kw_key in H. rewrite HKK in H. cbn [bind py_len] in H. rewrite HLen, Nat.eqb_refl in H.
  left. cbn [as_bytes bind] in H. destruct (payload rc) as [pl|] eqn:EP; cbn [vopt as_bytes bind] in H.
  - right. left. left. eauto.
  - injection H as <-. right. right. left. auto.
Qed.

Lemma agree_cek_err : forall rc k z t x, ckey rc = Some k -> typed k -> get_attr rc Algorithm = Ok (alg z) -> In z [-25; -26; -27; -28]%Z ->
  key_values X (phdr rc) -> key_values X (uhdr rc) -> agree_compute_cek X rc t true = Err x -> kek_trouble rc z k t x.
Proof.
  intros rc k z t x HK HT HA HZ HP HU H. unfold agree_compute_cek in H. rewrite HA in H. cbn [bind] in H.
  assert (HS : alg_in (alg z) (ss_hkdf ++ es_hkdf) = Ok true /\ (ss <- alg_in (alg z) ss_hkdf ;;
             if ss : bool then get_attr rc StaticKey else get_attr rc EphemeralKey) = get_attr rc (sender_header z) /\ In (sender_header z) [EphemeralKey; StaticKey]).
  { clear -HZ. repeat (destruct HZ as [<-|HZ]; [split; [reflexivity|split; [reflexivity|cbn; auto]]|]). destruct HZ. }
  destruct HS as (HS1 & HS & HSI). assert (HZA : In z agree_algs) by (clear -HZ; cbn in *; tauto).
  rewrite HS1 in H. cbn [bind negb] in H. rewrite HS in H. apply bind_err_inv in H as [H|(v & HV & H)]; [left; apply get_attr_err in H; subst x; reflexivity|].
  destruct (is_none v) eqn:EN; [injection H as <-; left; reflexivity|].
  destruct (header_key X rc _ v HP HU HSI HV) as [->|(p & -> & HC)]; [discriminate|].
  assert (EP : peer (kval p) = Ok p) by (destruct p; reflexivity). rewrite EP in H. cbn [bind] in H.
  apply bind_err_inv in H as [H|(u & HV1 & H)].
  { assert (HO : forall v, param p KpKeyOps = Some v -> exists l, v = VList l).
    { intros v Hv. destruct (constructed_ops X p HC) as [_ HO]. exact (HO KpKeyOps v Hv eq_refl). }
    assert (HD : (forall v, param p KpAlg = Some v -> exists a, v = VClass a) \/ exists v, param p KpAlg = Some v /\ forall a, v <> VClass a).
    { destruct (param p KpAlg) as [v|]; [|left; discriminate]. destruct v; try (right; eexists; split; [reflexivity|]; intros a Ha; discriminate).
      left. intros v Hv. injection Hv as <-. eauto. }
    destruct HD as [HD|(v & Hv & HD)].
    - left. eapply (key_verify_some p KEC2 z [Cls FOps 7; Cls FOps 8]); eassumption.
    - destruct (is_cose_exception x) eqn:EX; [left; exact EX|]. do 4 right. left. split.
      + unfold key_verify in H. destruct (negb _); [injection H as <-; discriminate|]. unfold param in Hv. unfold dget_or in H. rewrite Hv in H.
        apply bind_err_inv in H as [H|(? & _ & H)].
        * cbv zeta in H. destruct (is_none v); [discriminate|]. destruct (identifier_of v); [|injection H as <-; cbn; auto].
          cbn [identifier_of alg] in H. destruct (Z.eqb _ _); [discriminate|]. injection H as <-. discriminate.
        * cbv zeta in H. unfold param in HO. destruct (dget (k_store p) (VClass KpKeyOps)) as [w|].
          -- destruct (HO w eq_refl) as [l ->]. cbn [py_len bind] in H. destruct (Nat.eqb _ _); [discriminate|].
             change [DeriveKeyOp; DeriveBitsOp] with (map VClass [Cls FOps 7; Cls FOps 8]) in H. rewrite any_in_list in H. cbn [bind] in H.
             destruct (existsb _ _); [discriminate|]. injection H as <-. discriminate.
          -- cbn [py_len bind] in H. discriminate.
      + intros (q & HQ & _ & HQA). rewrite HV in HQ. assert (E : kval p = kval q) by congruence. apply kval_inj in E. subst q.
        destruct (HQA v Hv) as [a ->]. exact (HD a eq_refl). }
  rewrite HK in H. cbn [bind] in H. apply bind_err_inv in H as [H|(u' & HV2 & H)].
  { left. destruct HT as (HT1 & HT2 & _). eapply (key_verify_some k KEC2 z [Cls FOps 7; Cls FOps 8]); eassumption. }
  apply bind_err_inv in H as [H|(kb & HKB & H)].
  - eapply agree_kek_err; [exact HZA|exact HV|right; eauto|exact H].
  - left. eapply (derived_err kb t []); [cbn; auto|exact H].
Qed.

(** ** Received recipients *)

Lemma received_recipient : forall e allow b m r, decode X e allow (VBytes b) = Ok (MEnc m) -> In r (e_rcpts m) ->
  r_subs r = [] /\ key_values X (phdr (r_core r)) /\ key_values X (uhdr (r_core r)) /\
  ((exists z, In z (class_algs (r_class r)) /\ get_attr (r_core r) Algorithm = Ok (alg z)) \/ get_attr (r_core r) Algorithm = Err CoseException).
Proof.
  intros e allow b m r HD HI. destruct (all_or_none X e allow b) as [HA _]. specialize (HA m HD ltac:(intros E; rewrite E in HI; destruct HI)).
  destruct HA as (_ & _ & _ & _ & _ & _ & vs & _ & HF).
  assert (HC : exists v, create_recipient X allow (VStr (bs "Enc_Recipient")) (r_id r) v = Ok r).
  { clear -HF HI. induction HF as [|v r' vs rs HV HF IH]; [destruct HI|]. destruct HI as [->|HI]; [eauto|apply IH; exact HI]. }
  destruct HC as (v & HC). pose proof (recipient_well_formed X _ _ _ _ _ HC) as (_ & _ & _ & _ & _ & _ & _ & z & HZ & HG).
  unfold create_recipient in HC. apply bind_ok in HC as (r0 & _ & HC). apply bind_ok in HC as (pa & _ & HC). apply bind_ok in HC as (r1 & _ & HC). apply bind_ok in HC as (d & _ & HC).
  cbv zeta in HC. destruct (is_none _); [discriminate|]. apply bind_ok in HC as (rc & _ & HC). pose proof (from_obj_subs X _ _ _ _ _ _ HC) as (HS & _ & _).
  apply rcpt_from_core in HC as (l & rest & _ & HC). apply received_keys in HC as [HP HU].
  split; [exact HS|]. split; [exact HP|]. split; [exact HU|].
  destruct (get_attr (r_core r) Algorithm) as [a|x] eqn:EG; [|right; apply get_attr_err in EG; subst x; reflexivity]. left. exists z. split; [exact HZ|].
  unfold get_attr, get_attr_default, dget_or in EG. cbv zeta in EG. destruct HG as [HG|HG]; rewrite HG in EG; cbn [is_none algc negb] in EG.
  - rewrite andb_true_l in EG. destruct (negb _) in EG; [discriminate|]. rewrite <- EG. reflexivity.
  - rewrite andb_true_r in EG. destruct (negb _) in EG; [discriminate|]. rewrite <- EG. reflexivity.
Qed.

Lemma mixed_refused : forall rs r, In r rs -> r_class r <> RDirect -> has_class RDirect rs = true -> verify_recipients rs = Err CoseException.
Proof.
  intros rs r HI HN HD. unfold verify_recipients. rewrite HD. cbn [andb]. assert (HC : has_class (r_class r) rs = true).
  { unfold has_class. apply existsb_exists. exists r. split; [exact HI|]. destruct (r_class r); reflexivity. }
  assert (HL : Nat.ltb 1 (n_classes rs) = true); [|rewrite HL; reflexivity]. unfold n_classes. cbn [filter]. rewrite HD.
  destruct (r_class r); [congruence| | |]; rewrite HC; destruct (has_class RKeyWrap rs), (has_class RAgree rs), (has_class RAgreeKW rs); try discriminate; reflexivity.
Qed.

Lemma encm_decrypt_err : forall e allow b m i r k lo a x, law_hkdf_len X -> typed k -> decode X e allow (VBytes b) = Ok (MEnc m) ->
  nth_error (e_rcpts m) i = Some r -> r_class r <> RDirect ->
  snd (encm_decrypt X (equip_msg m a i (equip_rcpt r k lo)) (equip_rcpt r k lo)) = Err x ->
  is_cose_exception x = true \/ exists z, get_attr (r_core r) Algorithm = Ok (alg z) /\
    recipient_surprise X (with_aad (e_core m) a) (r_core (equip_rcpt r k lo)) z k x.
Proof.
  intros e allow b m i r k lo a x HL HT HD HI HN H. apply nth_error_In in HI. destruct (received_recipient e allow b m r HD HI) as (HSub & HP & HU & HA).
  assert (HC : encodable (with_aad (e_core m) a) /\ byte_ivs (with_aad (e_core m) a)).
  { apply decode_inv in HD as (b' & obj & _ & _ & _ & _ & rest & HC). cbn [message_core] in HC. destruct (received_object X allow obj _ rest k a HC) as (HE & HB & _). split; assumption. }
  destruct HC as [HE HB]. set (c := with_aad (e_core m) a) in *. set (r' := equip_rcpt r k lo) in *.
  assert (HCls : r_class r' = r_class r) by (destruct r; reflexivity).
  assert (HCore : r_core r' = with_local (with_key (r_core r) (Some k)) lo) by (destruct r; reflexivity).
  assert (HSub' : r_subs r' = []) by (destruct r; exact HSub).
  assert (HGet : forall h, get_attr (r_core r') h = get_attr (r_core r) h) by (intros h; rewrite HCore; reflexivity).
  assert (HKey : ckey (r_core r') = Some k) by (rewrite HCore; reflexivity).
  assert (HP' : key_values X (phdr (r_core r'))) by (rewrite HCore; exact HP). assert (HU' : key_values X (uhdr (r_core r'))) by (rewrite HCore; exact HU).
  clear HD HI HSub HP HU HCore. rewrite <- !HGet in *. rewrite <- HCls in *. clear HGet HCls. clearbody r'. clear r.
  unfold encm_decrypt, equip_msg in H. cbn [e_core e_rcpts] in H. fold c in H. set (rs := firstn i (e_rcpts m) ++ r' :: skipn (S i) (e_rcpts m)) in *.
  assert (HIn : In r' rs) by (unfold rs; apply in_app_iff; right; left; reflexivity). clearbody rs.
  destruct (get_attr c Algorithm) as [t|y] eqn:EA; [|cbn [snd] in H; injection H as <-; left; apply get_attr_err in EA; subst y; reflexivity].
  destruct (negb (has_recipient (r_id r') rs)); [cbn [snd] in H; injection H as <-; left; reflexivity|].
  destruct (verify_recipients rs) as [u|y] eqn:EV; [|cbn [snd] in H; injection H as <-; left; clear -EV; unfold verify_recipients in EV;
    repeat match type of EV with context [if ?b then _ else _] => destruct b; try discriminate end; injection EV as <-; reflexivity].
  destruct (has_class RDirect rs) eqn:ED; [rewrite (mixed_refused rs r' HIn HN ED) in EV; discriminate|].
  destruct (has_class RAgree rs || has_class RKeyWrap rs || has_class RAgreeKW rs); [|cbn [snd] in H; injection H as <-; left; reflexivity].
  assert (HF : forall o kb kk, In o used_options -> sym_init (VBytes kb) (VDict ((VClass KpAlg, t) :: o)) true = Ok kk -> enc_decrypt X "Encrypt" (with_key c (Some kk)) = Err x ->
    forall z, is_cose_exception x = true \/ recipient_surprise X c (r_core r') z k x).
  { intros o kb kk HO HK HDe z. destruct (derived_decrypt_err c t kb o kk x HE HB EA HO HK HDe) as [HX|[HX|[HX|[[-> HX]|HX]]]]; unfold recipient_surprise; auto 12. }
  destruct HA as [(z & HZ & HG)|HG].
  2:{ left. destruct (compute_cek X r' t true) as [ko|y] eqn:EC.
      - exfalso. unfold compute_cek in EC. destruct r' as [id rc cc ctx subs]. cbn [r_class r_core r_subs] in *. subst subs. destruct rc; [congruence| | |].
        + cbn [rcpt_decrypt] in EC. rewrite HG in EC. discriminate.
        + unfold agree_compute_cek in EC. rewrite HG in EC. discriminate.
        + cbn [rcpt_decrypt] in EC. unfold kakw_decrypt in EC. rewrite HG in EC. discriminate.
      - cbn [snd] in H. injection H as <-. unfold compute_cek in EC. destruct r' as [id rc cc ctx subs]. cbn [r_class r_core r_subs] in *. subst subs. destruct rc; [congruence| | |].
        + cbn [rcpt_decrypt] in EC. rewrite HG in EC. injection EC as <-. reflexivity.
        + unfold agree_compute_cek in EC. rewrite HG in EC. injection EC as <-. reflexivity.
        + cbn [rcpt_decrypt] in EC. unfold kakw_decrypt in EC. rewrite HG in EC. injection EC as <-. reflexivity. }
  enough (HR : is_cose_exception x = true \/ recipient_surprise X c (r_core r') z k x) by (destruct HR as [HR|HR]; [auto|right; eauto]).
  destruct r' as [id rc cc ctx subs]. cbn [r_class r_core r_subs] in *. subst subs. unfold compute_cek in H. cbn [r_class r_core] in H.
  assert (HWrap : forall kb, rcpt_decrypt X (Rcpt id rc cc ctx []) = Ok kb -> forall kk, sym_with (VBytes kb) t [DecryptOp] = Ok kk -> enc_decrypt X "Encrypt" (with_key c (Some kk)) = Err x ->
    is_cose_exception x = true \/ recipient_surprise X c cc z k x).
  { intros kb _ kk HK HDe. eapply (HF [(VClass KpKeyOps, VList [DecryptOp])]); [cbn; auto|exact HK|exact HDe]. }
  destruct rc; [congruence| | |].
  - destruct (rcpt_decrypt X (Rcpt id RKeyWrap cc ctx [])) as [kb|y] eqn:ER; cbn [bind] in H.
    + destruct (sym_with (VBytes kb) t [DecryptOp]) as [kk|y] eqn:ES; cbn [bind snd] in H; [eapply HWrap; [reflexivity|exact ES|exact H]|].
      injection H as <-. left. eapply derived_err; [|exact ES]. cbn. auto.
    + cbn [snd] in H. injection H as <-. cbn [class_algs] in HZ. destruct (kw_decrypt_err id ctx cc k z y HKey HT HG HZ ER) as [HX|[HX|[[-> HX]|HX]]]; [auto| | |]; right; unfold recipient_surprise.
      * auto.
      * right. right. right. left. split; [reflexivity|]. right. split; [exact HX|]. clear -HZ. cbn in *. intuition lia.
      * unfold attr_exns in HX. auto 8.
  - destruct (agree_compute_cek X cc t true) as [kk|y] eqn:ER; cbn [bind snd] in H.
    + unfold agree_compute_cek in ER. assert (HO : exists kb, sym_init (VBytes kb) (VDict [(VClass KpAlg, t)]) true = Ok kk).
      { clear -ER. apply bind_ok in ER as (? & _ & ER). apply bind_ok in ER as (kn & _ & ER). destruct (negb kn); [discriminate|]. apply bind_ok in ER as (pk & _ & ER).
        destruct (is_none pk); [discriminate|]. do 4 apply bind_ok in ER as (? & _ & ER). apply bind_ok in ER as (kb & _ & ER). eauto. }
      destruct HO as (kb & HO). eapply (HF []); [cbn; auto|exact HO|exact H].
    + injection H as <-. cbn [class_algs] in HZ. assert (HZ' : ~ In z [-3; -4; -5; -40; -41; -42]%Z) by (clear -HZ; cbn in *; intuition lia).
      destruct (agree_cek_err cc k z t y HKey HT HG HZ HP' HU' ER) as [HX|[HX|[[-> HX]|[HX|[HX|HX]]]]]; [auto| | | | |]; right; unfold recipient_surprise.
      * auto.
      * right. right. left. split; [reflexivity|]. intros (w & HW & HEnc). rewrite EA in HW. injection HW as ->. clear -HX HEnc.
        assert (HK : exists n, get_key_length (alg w) = Ok n); [|destruct HK as [n Hn]; exact (HX n Hn)].
        destruct HEnc as [HEnc|HEnc]; cbn in HEnc; repeat (destruct HEnc as [<-|HEnc]; [eexists; reflexivity|]); destruct HEnc.
      * unfold attr_exns in HX. auto 8.
      * do 5 right. left. destruct HX. auto.
      * do 6 right. left. auto.
  - destruct (rcpt_decrypt X (Rcpt id RAgreeKW cc ctx [])) as [kb|y] eqn:ER; cbn [bind] in H.
    + destruct (sym_with (VBytes kb) t [DecryptOp]) as [kk|y] eqn:ES; cbn [bind snd] in H; [eapply HWrap; [reflexivity|exact ES|exact H]|].
      injection H as <-. left. eapply derived_err; [|exact ES]. cbn. auto.
    + cbn [snd] in H. injection H as <-. cbn [class_algs] in HZ. cbn [rcpt_decrypt] in ER. assert (HZ' : ~ In z [-3; -4; -5; -40; -41; -42]%Z) by (clear -HZ; cbn in *; intuition lia).
      destruct (kakw_decrypt_err cc k z y HL HKey HG HZ HP' HU' ER) as [[HX|[HX|[[-> HX]|HX]]]|[HX|HX]]; [auto| | | | |]; right; unfold recipient_surprise.
      * auto.
      * right. right. right. left. split; [reflexivity|]. right. split; [exact HX|]. clear -HZ. cbn in *. intuition lia.
      * unfold attr_exns in HX. auto 8.
      * do 5 right. left. destruct HX. auto.
      * do 6 right. left. auto.
Qed.

(** Direct recipients: the message's key. *)
Lemma encm_direct_err : forall e allow b m r k a x, typed k -> decode X e allow (VBytes b) = Ok (MEnc m) ->
  In r (e_rcpts m) -> r_class r = RDirect ->
  snd (encm_decrypt X (EncMsg (equip (e_core m) k a) (e_rcpts m)) r) = Err x ->
  is_cose_exception x = true \/ enc_surprise X (equip (e_core m) k a) k x.
Proof.
  intros e allow b m r k a x HT HD HI HR H. apply decode_inv in HD as (b' & obj & _ & _ & _ & _ & rest & HC). cbn [message_core] in HC.
  destruct (received_object X allow obj _ rest k a HC) as (HE & HB & HK). unfold encm_decrypt in H. cbn [e_core e_rcpts] in H.
  destruct (get_attr _ Algorithm) as [t|y] eqn:EA; [|cbn [snd] in H; injection H as <-; left; apply get_attr_err in EA; subst y; reflexivity].
  destruct (negb _); [cbn [snd] in H; injection H as <-; left; reflexivity|].
  destruct (verify_recipients _) as [u|y] eqn:EV; [|cbn [snd] in H; injection H as <-; left; clear -EV; unfold verify_recipients in EV;
    repeat match type of EV with context [if ?b then _ else _] => destruct b; try discriminate end; injection EV as <-; reflexivity].
  assert (HH : has_class RDirect (e_rcpts m) = true) by (unfold has_class; apply existsb_exists; exists r; split; [exact HI|rewrite HR; reflexivity]).
  rewrite HH in H. cbn [snd] in H. eapply enc_decrypt_err; [|exact HE|exact HB|exact HK|exact HT|exact H]. reflexivity.
Qed.

End Decrypt.
