(** Round trip of the message fields. *)
From Coq Require Import NArith ZArith Bool String Lia.
From Coq Require Import Init.Byte List.
From Verif Require Import Bytes BytesProofs Value ValueProofs Cbor CborProofs SpecData DataProofs Registry
  RegistryProofs Crypto SpecCrypto Keys Algorithms Headers Messages Recipients SpecRegistry SpecKeys SpecHdr HdrProofs HdrProofs2 MiscProofs
  SpecTrip KeyTrip KeyTrip2 SpecAlg KeyProofs2 AlgProofs SpecMsg HdrTrip.
Import ListNotations.
Local Open Scope result_scope.

Lemma same_headers_refl : forall h, same_headers h h.
Proof. intros h. induction h as [|[a v] h IH]; constructor; [split; [reflexivity|left; reflexivity]|assumption]. Qed.

Lemma same_headers_get : forall h h' a, same_headers h h' ->
  match dget h a, dget h' a with
  | Some v, Some w => exists b, keyeq a b = true /\ same_value b v w
  | None, None => True
  | _, _ => False
  end.
Proof.
  intros h h' a H. induction H as [|[b v] [b' w] h h' [E HV] H IH]; [exact I|]. cbn [fst snd] in *. subst b'.
  cbn [dget]. destruct (keyeq a b) eqn:E; [eauto|exact IH].
Qed.

Lemma same_value_none : forall a v w, same_value a v w -> is_none w = is_none v.
Proof.
  intros a v w [->|(_ & k & k' & HV & -> & _)]; [reflexivity|]. destruct HV as [->| ->]; destruct k, k'; reflexivity.
Qed.

Lemma same_headers_nil : forall h h', same_headers h h' -> (h = [] <-> h' = []).
Proof. intros h h' H. destruct H; split; congruence. Qed.

Lemma get_attr_same : forall c c' a v, same_headers (phdr c) (phdr c') -> same_headers (uhdr c) (uhdr c') ->
  get_attr c a = Ok v -> exists w b, get_attr c' a = Ok w /\ same_value b v w.
Proof.
  intros c c' a v HP HU H. unfold get_attr, get_attr_default, dget_or in *.
  pose proof (same_headers_get _ _ a HP) as GP. pose proof (same_headers_get _ _ a HU) as GU.
  assert (HR : forall x, same_value a x x) by (left; reflexivity).
  destruct (dget (phdr c) a) as [p|], (dget (phdr c') a) as [p'|]; try contradiction;
  destruct (dget (uhdr c) a) as [u|], (dget (uhdr c') a) as [u'|]; try contradiction;
  try (destruct GP as (b & _ & GP)); try (destruct GU as (b' & _ & GU));
  rewrite ?(same_value_none _ _ _ GP), ?(same_value_none _ _ _ GU); cbn [is_none negb andb] in *.
  - destruct (negb (is_none p) && negb (is_none u)); [discriminate|].
    destruct (negb (is_none p)); injection H as <-; eauto.
  - destruct (negb (is_none p)); rewrite ?andb_false_r in *; injection H as <-; eauto.
  - destruct (negb (is_none u)); injection H as <-; eauto.
  - injection H as <-. exists VNone, a. auto.
Qed.

Lemma same_value_other : forall a v w, same_value a v w ->
  match v with VKey _ _ _ | VDict _ => True | _ => w = v end.
Proof.
  intros a v w [->|(_ & k & k' & [->| ->] & -> & _)]; [destruct v; auto|destruct k; exact I|exact I].
Qed.

Lemma loads_nil : forall v, loads_bytes [] <> Ok v.
Proof. intros v H. unfold loads_bytes in H. vm_compute decode_item in H. discriminate. Qed.

Section Trip.
Variable X : crypto.

Lemma phdr_trip : forall c p, protected_ok X c -> phdr_encoded c = Ok p ->
  exists d h', (p = [] /\ d = [] \/ p <> [] /\ loads_bytes p = Ok (VDict d)) /\
    parse_items X true d [] = Ok h' /\ same_headers (phdr c) h'.
Proof.
  intros c p HO HE. unfold protected_ok, phdr_encoded in *. destruct (phdr_raw c) as [b|].
  - injection HE as <-. destruct HO as [[-> ->]|(d & HL & HP)].
    + exists [], []. split; [auto|]. split; [reflexivity|constructor].
    + exists d, (phdr c). split; [right; split; [|assumption]|]. { intros ->. elim (loads_nil _ HL). }
      split; [assumption|apply same_headers_refl].
  - destruct (phdr c) as [|e r] eqn:EP.
    + injection HE as <-. exists [], []. split; [auto|]. split; [reflexivity|constructor].
    + remember (e :: r) as s. clear Heqs EP e r.
      destruct (sendable_trip X (HMsg (tstr c)) s HO) as (s' & HP & HS).
      exists (W (HMsg (tstr c)) s), s'. split; [|split; assumption]. right.
      pose proof (loads_dumps_wire cls_fullname (HMsg (tstr c)) (VDict s) p []) as HL.
      rewrite wire_dict, app_nil_r in HL. specialize (HL (sendable_data X _ s HO) HE).
      split; [|assumption]. intros ->. elim (loads_nil _ HL).
Qed.

(** The body of a message as its receiver sees it. *)
Lemma core_trip : forall c p h pl pv rest, headers_ok X c -> phdr_encoded c = Ok p -> check_payload pv = Ok pl ->
  exists c', core_from_obj X true (VBytes p :: VDict (W h (uhdr c)) :: pv :: rest) = Ok (c', rest) /\
    arrived c c' /\ payload c' = pl /\ phdr_raw c' = Some p /\ tstr c' = false /\ local c' = [].
Proof.
  intros c p h pl pv rest [HO HU] HE HC. destruct (phdr_trip c p HO HE) as (d & h' & HD & HP & HS).
  destruct (sendable_trip X h (uhdr c) HU) as (u' & HPU & HSU).
  exists (Core h' (Some p) u' [] false pl [] None). split.
  - cbn [core_from_obj]. unfold core_init. cbn [a_phdr a_phdr_encoded a_uhdr a_allow a_payload a_aad a_key a_tstr].
    assert (HX : (if veqb (VBytes p) (VBytes []) then Ok (VDict []) else loads (VBytes p)) = Ok (VDict d)).
    { destruct HD as [[-> ->]|[HN HL]]; [reflexivity|]. destruct (veqb (VBytes p) (VBytes [])) eqn:E.
      - apply veqb_eq in E. congruence.
      - exact HL. }
    rewrite HX. cbn [bind]. rewrite HP. cbn [bind]. rewrite HPU. cbn [bind check_payload check_aad as_bytes check_key].
    rewrite HC. cbn [bind]. reflexivity.
  - split; [|split; [reflexivity|split; [reflexivity|split; reflexivity]]]. split; [exact HS|].
    split; [exact HSU|]. split; [symmetry; exact HE|split; reflexivity].
Qed.

Lemma base_protected_trip : forall c c', arrived c c' -> base_protected c' = base_protected c.
Proof.
  intros c c' (HP & _ & HE & _). unfold base_protected. pose proof (same_headers_nil _ _ HP) as HN.
  destruct (phdr c), (phdr c'); try reflexivity; [|destruct HN as [_ HN]|rewrite HE; reflexivity].
  - destruct HN as [HN _]. specialize (HN eq_refl). discriminate.
  - specialize (HN eq_refl). discriminate.
Qed.

(** ** The outer encoding *)

Lemma emit_trip : forall c t items b, emit c t true items = Ok b -> reserved_tag t = false ->
  Forall (fun v => data_value false (wire cls_fullname (HMsg (tstr c)) v) = true) items ->
  loads (VBytes b) = Ok (VTag t (VList (map (wire cls_fullname (HMsg (tstr c))) items))).
Proof.
  intros c t items b H HR HF. unfold emit, dumps_msg in H.
  pose proof (loads_dumps_wire cls_fullname (HMsg (tstr c)) (VTag t (VList items)) b []) as HL. rewrite app_nil_r in HL.
  apply HL in H; [exact H|]. cbn [wire data_value]. rewrite HR. cbn [negb andb].
  apply forallb_forall. intros v HI. apply in_map_iff in HI as (w & <- & HI). rewrite Forall_forall in HF. auto.
Qed.

Lemma uhdr_data : forall c h, sendable X (uhdr c) -> data_value false (wire cls_fullname h (VDict (uhdr c))) = true.
Proof. intros c h HU. rewrite wire_dict. apply (sendable_data X). assumption. Qed.

Lemma vopt_wire : forall h (o : option bytes), wire cls_fullname h (vopt o) = vopt o.
Proof. intros h [b|]; reflexivity. Qed.
Lemma vopt_data : forall (o : option bytes), data_value false (vopt o) = true.
Proof. intros [b|]; reflexivity. Qed.
Lemma vopt_check : forall (o : option bytes), check_payload (vopt o) = Ok o.
Proof. intros [b|]; reflexivity. Qed.

(** ** Keys *)

Lemma key_verify_ok : forall k a ops, alg_ok k a -> ops_ok k ops -> key_verify k (k_cls k) (VClass a) (map VClass ops) = Ok tt.
Proof.
  intros k a ops HA HO. apply key_verify_cases; [|split; [reflexivity|auto]].
  intros v HV. destruct HO as [HO|[HO|(l & o & HO & _)]]; rewrite HO in HV; try discriminate; injection HV as <-; eauto.
Qed.

Lemma rsa_read : forall k i p v, k_cls k = KRSA -> bytes_prop KRSA i = Some p -> rsa_number k p v -> attr_int k i = Ok v.
Proof.
  intros k i p v HC HP (b & HB & <-). unfold attr_int, prop_get. rewrite HC, HP. unfold dget_or. unfold bytes_param, param in HB. rewrite HB.
  destruct i; try discriminate HP; reflexivity.
Qed.
Lemma rsa_public_read : forall k p, rsa_public_key k p -> rsa_public_numbers k = Ok p.
Proof.
  intros k [e n] (HC & HN & HE). unfold rsa_public_numbers. rewrite (rsa_read k PE _ _ HC eq_refl HE), (rsa_read k PN _ _ HC eq_refl HN). reflexivity.
Qed.
Lemma rsa_private_read : forall k q, rsa_private_key k q -> rsa_private_numbers k = Ok q.
Proof.
  intros k q (HK & HD & HP & HQ & HDP & HDQ & HI). pose proof HK as (HC & _). unfold rsa_private_numbers. rewrite (rsa_public_read _ _ HK). cbn [bind].
  rewrite (rsa_read k PP _ _ HC eq_refl HP), (rsa_read k PQ _ _ HC eq_refl HQ), (rsa_read k PD _ _ HC eq_refl HD),
    (rsa_read k PDP _ _ HC eq_refl HDP), (rsa_read k PDQ _ _ HC eq_refl HDQ), (rsa_read k PQInv _ _ HC eq_refl HI). destruct q. reflexivity.
Qed.

Lemma key_pair_verifies : forall z ks kv seed data s, law_rsa X -> law_ecdsa X -> law_ed X -> key_pair X z ks kv ->
  alg_sign X seed (alg z) ks data = Ok s -> alg_verify X (alg z) kv data (VBytes s) = Ok true.
Proof.
  intros z ks kv seed data s LR LE LD HK HS. destruct HK as [z c h ks kv d x y HI HCS HCV HD HX HY NX NY HP|c ks kv d x HI HCS HCV HPS HPV HD HX E|z ks kv q HI HQ HC HV].
  - destruct (ecdsa_calls X z c h seed kv data HI) as [_ HV]. rewrite (HV x y s); try assumption.
    + eapply LE; [eassumption|]. destruct (ecdsa_calls X z c h seed ks data HI) as [HG _]. rewrite <- (HG d); [eassumption| |].
      * unfold prop_get. rewrite HCS. cbn [bytes_prop]. unfold dget_or. unfold bytes_param, param in HD. rewrite HD. reflexivity.
      * intros ->. assert (HT : alg_kind (alg z) = Some (AEcdsa c h)).
        { repeat (destruct HI as [HI|HI]; [injection HI as <- <- <-; reflexivity|]). destruct HI. }
        unfold alg_sign in HS. rewrite HT in HS. unfold attr_hex, prop_get in HS. rewrite HCS in HS. cbn [bytes_prop] in HS.
        unfold dget_or in HS. unfold bytes_param, param in HD. rewrite HD in HS. discriminate.
    + unfold prop_get. rewrite HCV. cbn [bytes_prop]. unfold dget_or. unfold bytes_param, param in HX. rewrite HX. reflexivity.
    + unfold prop_get. rewrite HCV. cbn [bytes_prop]. unfold dget_or. unfold bytes_param, param in HY. rewrite HY. reflexivity.
  - assert (HC : forall k, k_cls k = KOKP -> param k OKPKpCurve = Some (VClass (Cls FCrv c)) -> ed_curve k = Ok c).
    { intros k HC HP. unfold ed_curve, prop_get. rewrite HC. cbn [crv_prop]. unfold param in HP. rewrite HP. cbn [bind].
      cbn [In] in HI. destruct HI as [<-|[<-|[]]]; vm_compute; reflexivity. }
    unfold alg_sign in HS. unfold alg_verify. change (alg_kind (alg (-8))) with (Some AEdDSA) in *. cbn beta iota in *.
    rewrite (HC _ HCS HPS) in HS. rewrite (HC _ HCV HPV). cbn [bind] in *.
    unfold attr_bytes, prop_get in *. rewrite HCS in HS. rewrite HCV. cbn [bytes_prop] in *. unfold dget_or in *.
    unfold bytes_param, param in HD, HX. rewrite HD in HS. rewrite HX. cbn [bind as_bytes] in *. subst x. eapply LD. exact HS.
  - assert (HT : exists pad h, alg_kind (alg z) = Some (ARsa pad h)).
    { cbn [In rsa_signatures] in HI. repeat (destruct HI as [<-|HI]; [eexists; eexists; reflexivity|]). destruct HI. }
    destruct HT as (pad & h & HT). unfold alg_sign in HS. unfold alg_verify. rewrite HT in *.
    rewrite (rsa_public_read _ _ HV). rewrite (rsa_private_read _ _ HQ) in HS. cbn [bind as_bytes] in *. eapply LR; eassumption.
Qed.

Lemma alg_trip : forall c c' z, arrived c c' -> get_attr c Algorithm = Ok (alg z) -> get_attr c' Algorithm = Ok (alg z).
Proof.
  intros c c' z (HP & HU & _) H. destruct (get_attr_same c c' Algorithm _ HP HU H) as (w & bb & HW & HS).
  apply same_value_other in HS. cbn [alg] in HS. rewrite HW, HS. reflexivity.
Qed.

Lemma get_attr_equip : forall c k a x, get_attr (equip c k a) x = get_attr c x.
Proof. reflexivity. Qed.

(** Verification on the receiving side. *)
Lemma verify_trip : forall seed c c' kv st s, law_rsa X -> law_ecdsa X -> law_ed X -> arrived c c' -> verifier X c kv ->
  compute_signature X seed c st = Ok s -> verify_signature X (equip c' kv (aad c)) st (VBytes s) = Ok true.
Proof.
  intros seed c c' kv st s LR LE LD HA (z & ks & HG & HK & HP & HO & HOP) HS.
  unfold compute_signature in HS. rewrite HG in HS. cbn [bind] in HS.
  apply bind_ok in HS as (k0 & HV & HS). unfold key_verification in HV. rewrite HK in HV.
  assert (k0 = ks) by (destruct (k_cls ks); try discriminate; apply bind_ok in HV as (? & _ & HV); congruence). subst k0.
  apply bind_ok in HS as (u & HH & HS). apply bind_ok in HS as (data & HD & HS).
  unfold verify_signature. rewrite get_attr_equip, (alg_trip c c' z HA HG). cbn [bind].
  assert (HKV : key_verification (equip c' kv (aad c)) (alg z) VerifyOp = Ok kv).
  { unfold key_verification. cbn [equip with_aad with_key ckey].
    pose proof (key_verify_ok kv _ _ HO HOP) as HKO. cbn [map] in HKO.
    destruct (k_cls kv) eqn:EC; try (unfold VerifyOp; unfold alg in *; rewrite HKO; reflexivity).
    destruct HP as [| |? ? ? ? ? ? ? [HC _]]; congruence. }
  rewrite HKV. cbn [bind]. rewrite HH. cbn [bind]. rewrite HD. cbn [bind].
  eapply key_pair_verifies; eassumption.
Qed.

Lemma sign1_structure_trip : forall c c' kv d, arrived c c' -> payload c' = payload c ->
  sign1_structure (equip c' kv (aad c)) d = sign1_structure c d.
Proof.
  intros c c' kv d HA HP. unfold sign1_structure.
  change (base_protected (equip c' kv (aad c))) with (base_protected c').
  change (payload (equip c' kv (aad c))) with (payload c'). change (aad (equip c' kv (aad c))) with (aad c).
  rewrite (base_protected_trip _ _ HA), HP. reflexivity.
Qed.

Lemma sign1_trip : forall seed m d b kv e, law_rsa X -> law_ecdsa X -> law_ed X ->
  headers_ok X (s1_core m) -> verifier X (s1_core m) kv -> e = None \/ e = Some 18%N ->
  sign1_encode X seed m true true d = Ok b ->
  exists m' s, decode X e true (VBytes b) = Ok (MSign1 m') /\ arrived (s1_core m) (s1_core m') /\
    payload (s1_core m') = payload (s1_core m) /\ s1_sig m' = VBytes s /\
    sign1_verify X (Sign1 (equip (s1_core m') kv (aad (s1_core m))) (s1_sig m')) d = Ok true.
Proof.
  intros seed m d b kv e LR LE LD HO HV He H. unfold sign1_encode in H. apply bind_ok in H as (p & HP & H).
  apply bind_ok in H as (items & HI & H). apply bind_ok in HI as (s & HS & HI). injection HI as <-.
  set (c := s1_core m) in *. cbn [app] in H.
  apply emit_trip in H; [|reflexivity|].
  2:{ repeat (apply Forall_cons; [try reflexivity|]); [..|apply Forall_nil].
      - apply uhdr_data. apply HO.
      - rewrite vopt_wire. apply vopt_data. }
  cbn [map] in H. rewrite wire_dict, vopt_wire in H. cbn [wire] in H.
  destruct (core_trip c p (HMsg (tstr c)) (payload c) (vopt (payload c)) [VBytes s] HO HP (vopt_check _))
    as (c' & HC & HA & HPL & _).
  exists (Sign1 c' (VBytes s)), s. split.
  - unfold decode. rewrite H. unfold from_cose_obj. cbn [N.eqb Pos.eqb]. unfold sign1_from_obj. rewrite HC. cbn [bind].
    destruct He as [-> | ->]; reflexivity.
  - split; [exact HA|]. split; [exact HPL|]. split; [reflexivity|]. unfold sign1_verify. cbn [s1_core s1_sig].
    rewrite (sign1_structure_trip c c' kv d HA HPL). eapply verify_trip; eassumption.
Qed.

(** ** COSE_Sign *)

Lemma signer_structure_trip : forall m m' c c' kv d, arrived m m' -> payload m' = payload m -> arrived c c' ->
  signer_structure (Some m') (equip c' kv (aad c)) d = signer_structure (Some m) c d.
Proof.
  intros m m' c c' kv d (_ & _ & HE & _) HPM HA. unfold signer_structure. rewrite HE, HPM.
  change (phdr (equip c' kv (aad c))) with (phdr c'). change (phdr_encoded (equip c' kv (aad c))) with (phdr_encoded c').
  change (aad (equip c' kv (aad c))) with (aad c). destruct HA as (HP & _ & HEC & _). rewrite HEC.
  pose proof (same_headers_nil _ _ HP) as [HN1 HN2].
  destruct (phdr c), (phdr c'); try reflexivity; [specialize (HN1 eq_refl)|specialize (HN2 eq_refl)]; discriminate.
Qed.

(** The signers array as sent. *)
Lemma signers_trip : forall h m d ss kvs seed vs, law_rsa X -> law_ecdsa X -> law_ed X ->
  Forall2 (fun s kv => headers_ok X s /\ verifier X s kv) ss kvs ->
  signers_encode X seed (Some m) ss d = Ok vs ->
  Forall (fun v => data_value false (wire cls_fullname h v) = true) vs /\
  exists ss', mapM (signer_from_obj X true) (map (wire cls_fullname h) vs) = Ok ss' /\
    Forall2 (fun e s' => arrived (fst e) s' /\
      forall m', arrived m m' -> payload m' = payload m ->
        signer_verify X (Some m') (equip s' (snd e) (aad (fst e))) d = Ok true) (combine ss kvs) ss'.
Proof.
  intros h m d ss kvs seed vs LR LE LD HF. revert seed vs. induction HF as [|s kv ss kvs [HO HV] HF IH]; intros seed vs H.
  - injection H as <-. split; [constructor|]. exists []. split; [reflexivity|constructor].
  - cbn [signers_encode] in H. apply bind_ok in H as (v & H1 & H). apply bind_ok in H as (vs' & H2 & H). injection H as <-.
    destruct (IH _ _ H2) as (HD & ss' & HM & HR). clear IH.
    unfold signer_encode in H1. apply bind_ok in H1 as (p & HP & H1). apply bind_ok in H1 as (sg & HS & H1). injection H1 as <-.
    split.
    + constructor; [|assumption]. cbn [wire data_value negb andb map forallb]. rewrite andb_true_r.
      apply (uhdr_data s h). apply HO.
    + destruct (core_trip s p h (Some sg) (VBytes sg) [] HO HP eq_refl) as (s' & HC & HA & HPL & _).
      exists (s' :: ss'). split.
      * cbn [map mapM]. change (wire cls_fullname h (VList [VBytes p; VDict (uhdr s); VBytes sg]))
          with (VList [VBytes p; wire cls_fullname h (VDict (uhdr s)); VBytes sg]).
        rewrite wire_dict. cbn [signer_from_obj]. rewrite HC. cbn [bind]. rewrite HM. reflexivity.
      * cbn [combine]. constructor; [|assumption]. cbn [fst snd]. split; [exact HA|]. intros m' HM' HPM'.
        unfold signer_verify. rewrite (signer_structure_trip m m' s s' kv d HM' HPM' HA).
        change (payload (equip s' kv (aad s))) with (payload s'). rewrite HPL. cbn [vopt].
        eapply verify_trip; eassumption.
Qed.

Lemma sign_trip : forall seed m d b kvs e, law_rsa X -> law_ecdsa X -> law_ed X ->
  headers_ok X (sm_core m) -> sm_signers m <> [] ->
  Forall2 (fun s kv => headers_ok X s /\ verifier X s kv) (sm_signers m) kvs -> e = None \/ e = Some 98%N ->
  sign_encode X seed m true d = Ok b ->
  exists m', decode X e true (VBytes b) = Ok (MSign m') /\ arrived (sm_core m) (sm_core m') /\
    payload (sm_core m') = payload (sm_core m) /\
    Forall2 (fun e s' => arrived (fst e) s' /\
      signer_verify X (Some (sm_core m')) (equip s' (snd e) (aad (fst e))) d = Ok true)
      (combine (sm_signers m) kvs) (sm_signers m').
Proof.
  intros seed m d b kvs e LR LE LD HO HN HF He H. unfold sign_encode in H. apply bind_ok in H as (p & HP & H).
  apply bind_ok in H as (items & HI & H).
  destruct (sm_signers m) as [|s0 ss0] eqn:ES; [elim HN; reflexivity|]. rewrite <- ES in *. clear s0 ss0 ES HN.
  apply bind_ok in HI as (vs & HS & HI). injection HI as <-. set (c := sm_core m) in *. cbn [app] in H.
  destruct (signers_trip (HMsg (tstr c)) c d _ kvs seed vs LR LE LD HF HS) as (HD & ss' & HM & HR).
  apply emit_trip in H; [|reflexivity|].
  2:{ repeat (apply Forall_cons; [try reflexivity|]); [..|apply Forall_nil].
      - apply uhdr_data. apply HO.
      - rewrite vopt_wire. apply vopt_data.
      - cbn [wire data_value negb andb]. apply forallb_forall. intros v HI. apply in_map_iff in HI as (w & <- & HI).
        rewrite Forall_forall in HD. auto. }
  cbn [map] in H. rewrite wire_dict, vopt_wire in H. cbn [wire] in H.
  destruct (core_trip c p (HMsg (tstr c)) (payload c) (vopt (payload c)) [VList (map (wire cls_fullname (HMsg (tstr c))) vs)] HO HP (vopt_check _))
    as (c' & HC & HA & HPL & _).
  exists (SignMsg c' ss'). split.
  - unfold decode. rewrite H. unfold from_cose_obj. cbn [N.eqb Pos.eqb]. unfold sign_from_obj. rewrite HC. cbn [bind py_iter].
    rewrite HM. cbn [bind]. destruct He as [-> | ->]; reflexivity.
  - split; [exact HA|]. split; [exact HPL|]. cbn [sm_core sm_signers]. clear - HR HA HPL.
    induction HR as [|x y xs ys [H1 H2] HR IH]; constructor; [|assumption]. split; [assumption|]. auto.
Qed.

(** ** COSE_Mac0, COSE_Encrypt0 *)

Lemma mac_structure_trip : forall ctx c c' k, arrived c c' -> payload c' = payload c ->
  mac_structure ctx (equip c' k (aad c)) = mac_structure ctx c.
Proof.
  intros ctx c c' k HA HP. unfold mac_structure.
  change (base_protected (equip c' k (aad c))) with (base_protected c').
  change (payload (equip c' k (aad c))) with (payload c'). change (aad (equip c' k (aad c))) with (aad c).
  rewrite (base_protected_trip _ _ HA), HP. reflexivity.
Qed.

Lemma enc_structure_trip : forall ctx c c' k, arrived c c' -> enc_structure ctx (equip c' k (aad c)) = enc_structure ctx c.
Proof.
  intros ctx c c' k HA. unfold enc_structure.
  change (base_protected (equip c' k (aad c))) with (base_protected c'). change (aad (equip c' k (aad c))) with (aad c).
  rewrite (base_protected_trip _ _ HA). reflexivity.
Qed.

Lemma secret_tag : forall a k k' b data, secret k b -> secret k' b -> alg_compute_tag X a k data = alg_compute_tag X a k' data.
Proof.
  intros a k k' b data H H'. unfold alg_compute_tag, aes_key, attr_bytes. rewrite H, H'. reflexivity.
Qed.

Lemma mac_trip : forall ctx c c' kr t, arrived c c' -> payload c' = payload c -> shares c (Cls FOps 10) kr ->
  mac_compute X ctx c = Ok t -> mac_verify X ctx (equip c' kr (aad c)) (VBytes t) = Ok true.
Proof.
  intros ctx c c' kr t HA HP (z & ks & b & HG & HK & HC & HS & HS' & _ & HAO & HOP) H.
  unfold mac_compute in H. rewrite HG, HK in H. cbn [bind] in H. apply bind_ok in H as (u & _ & H).
  apply bind_ok in H as (u' & HH & H). apply bind_ok in H as (data & HD & H).
  unfold mac_verify. rewrite get_attr_equip, (alg_trip c c' z HA HG). cbn [bind equip with_aad with_key ckey].
  change (Core (phdr c') (phdr_raw c') (uhdr c') (local c') (tstr c') (payload c') (aad c) (Some kr)) with (equip c' kr (aad c)).
  pose proof (key_verify_ok kr _ _ HAO HOP) as HKO. rewrite HC in HKO. cbn [map] in HKO. unfold MacVerifyOp. unfold alg in *. rewrite HKO.
  cbn [bind]. rewrite HH. cbn [bind]. rewrite (mac_structure_trip ctx c c' kr HA HP), HD. cbn [bind].
  unfold alg_verify_tag. rewrite (secret_tag _ kr ks b data HS' HS), H. cbn [bind]. rewrite veqb_refl. reflexivity.
Qed.

Lemma mac0_trip : forall m b kr e, headers_ok X (m0_core m) -> shares (m0_core m) (Cls FOps 10) kr ->
  e = None \/ e = Some 17%N -> snd (mac0_encode X m true true) = Ok b ->
  exists m', decode X e true (VBytes b) = Ok (MMac0 m') /\ arrived (m0_core m) (m0_core m') /\
    payload (m0_core m') = payload (m0_core m) /\
    mac0_verify_tag X (Mac0 (equip (m0_core m') kr (aad (m0_core m))) (m0_tag m')) = Ok true.
Proof.
  intros m b kr e HO HS He H. unfold mac0_encode, mac0_compute_tag in H.
  destruct (phdr_encoded (m0_core m)) as [p|] eqn:HP; [|discriminate].
  destruct (mac_compute X "MAC0" (m0_core m)) as [t|] eqn:HT; [|discriminate]. cbn [snd app] in H. set (c := m0_core m) in *.
  apply emit_trip in H; [|reflexivity|].
  2:{ repeat (apply Forall_cons; [try reflexivity|]); [..|apply Forall_nil].
      - apply uhdr_data. apply HO.
      - rewrite vopt_wire. apply vopt_data. }
  cbn [map] in H. rewrite wire_dict, vopt_wire in H. cbn [wire] in H.
  destruct (core_trip c p (HMsg (tstr c)) (payload c) (vopt (payload c)) [VBytes t] HO HP (vopt_check _))
    as (c' & HC & HA & HPL & _).
  exists (Mac0 c' (VBytes t)). split.
  - unfold decode. rewrite H. unfold from_cose_obj. cbn [N.eqb Pos.eqb]. unfold mac0_from_obj. rewrite HC. cbn [bind].
    destruct He as [-> | ->]; reflexivity.
  - split; [exact HA|]. split; [exact HPL|]. unfold mac0_verify_tag. cbn [m0_core m0_tag]. eapply mac_trip; eassumption.
Qed.

Lemma base_iv_prop : forall k k', k_cls k = KSym -> k_cls k' = KSym -> param k KpBaseIV = param k' KpBaseIV ->
  prop_get k PBaseIV = prop_get k' PBaseIV.
Proof. intros k k' H H' E. unfold prop_get. rewrite H, H'. cbn [bytes_prop]. unfold dget_or. unfold param in E. rewrite E. reflexivity. Qed.

Lemma nonce_trip : forall c c' ks kr n, arrived c c' -> ckey c = Some ks -> k_cls ks = KSym -> k_cls kr = KSym ->
  param kr KpBaseIV = param ks KpBaseIV -> get_nonce c = Ok (VBytes n) -> get_nonce (equip c' kr (aad c)) = Ok (VBytes n).
Proof.
  intros c c' ks kr n (HP & HU & _) HK HC HC' HB H. unfold get_nonce in *. apply bind_ok in H as (iv & HI & H).
  rewrite get_attr_equip. destruct (get_attr_same c c' IV _ HP HU HI) as (iv' & bb & HI' & HS). rewrite HI'. cbn [bind].
  rewrite (same_value_none _ _ _ HS). destruct (is_none iv) eqn:EN.
  - rewrite HK in H. change (ckey (equip c' kr (aad c))) with (Some kr). cbn iota. rewrite (base_iv_prop kr ks HC' HC HB), get_attr_equip.
    apply bind_ok in H as (base & HBa & H). rewrite HBa. cbn [bind]. destruct (veqb base (VBytes [])); [discriminate|].
    apply bind_ok in H as (piv & HPI & H). apply bind_ok in H as (pb & HPB & H).
    destruct (get_attr_same c c' PartialIV _ HP HU HPI) as (piv' & bb' & HPI' & HSP). rewrite HPI'. cbn [bind].
    destruct piv; try discriminate. apply same_value_other in HSP. rewrite HSP, HPB. exact H.
  - injection H as ->. apply same_value_other in HS. rewrite HS. reflexivity.
Qed.

Lemma key_verify_class : forall k c a ops u, key_verify k c a ops = Ok u -> k_cls k = c.
Proof.
  intros k c a ops u H. unfold key_verify in H. destruct (kclass_eqb (k_cls k) c) eqn:E; [|discriminate].
  apply kclass_eqb_eq. assumption.
Qed.

Lemma enc_trip : forall ctx c c' kr ct, law_gcm X -> law_ccm X -> arrived c c' -> payload c' = Some ct ->
  shares c (Cls FOps 4) kr -> enc_encrypt X ctx c = Ok ct ->
  exists pl, payload c = Some pl /\ enc_decrypt X ctx (equip c' kr (aad c)) = Ok pl.
Proof.
  intros ctx c c' kr ct LG LC HA HP (z & ks & b & HG & HK & HC & HS & HS' & HB & HAO & HOP) H.
  unfold enc_encrypt in H. rewrite HK, HG in H. cbn [bind] in H. apply bind_ok in H as (nonce & HN & H).
  apply bind_ok in H as (u & HV & H). apply bind_ok in H as (u' & HH & H). apply bind_ok in H as (ad & HD & H).
  assert (HAE : exists n pl, nonce = VBytes n /\ payload c = Some pl /\
     alg_decrypt X (alg z) kr (VBytes n) (VBytes ct) ad = Ok pl).
  { unfold alg_encrypt in H. unfold alg_decrypt. unfold attr_bytes in *. rewrite HS in H. rewrite HS'. cbn [bind as_bytes] in *.
    destruct (alg_kind (alg z)) as [[]|]; try discriminate;
      apply bind_ok in H as (n & HNB & H); apply bind_ok in H as (pl & HPB & H);
      (destruct nonce; try discriminate); injection HNB as <-; (destruct (payload c); try discriminate); injection HPB as <-;
      eexists; eexists; (split; [reflexivity|]); (split; [reflexivity|]); eauto. }
  destruct HAE as (n & pl & -> & HPL & HDE). exists pl. split; [exact HPL|].
  unfold enc_decrypt. rewrite get_attr_equip, (alg_trip c c' z HA HG). cbn [bind].
  apply key_verify_class in HV as HCS.
  rewrite (nonce_trip c c' ks kr n HA HK HCS HC HB HN). cbn [bind equip with_aad with_key ckey].
  change (Core (phdr c') (phdr_raw c') (uhdr c') (local c') (tstr c') (payload c') (aad c) (Some kr)) with (equip c' kr (aad c)).
  pose proof (key_verify_ok kr _ _ HAO HOP) as HKO. rewrite HC in HKO. cbn [map] in HKO. unfold DecryptOp. unfold alg in *. rewrite HKO.
  cbn [bind]. rewrite HH. cbn [bind]. rewrite (enc_structure_trip ctx c c' kr HA), HD. cbn [bind].
  change (payload (equip c' kr (aad c))) with (payload c'). rewrite HP. exact HDE.
Qed.

Lemma enc0_trip : forall c b kr e, law_gcm X -> law_ccm X -> headers_ok X c -> shares c (Cls FOps 4) kr ->
  e = None \/ e = Some 16%N -> enc0_encode X c true true = Ok b ->
  exists c' pl, decode X e true (VBytes b) = Ok (MEnc0 c') /\ arrived c c' /\
    payload c = Some pl /\ enc0_decrypt X (equip c' kr (aad c)) = Ok pl.
Proof.
  intros c b kr e LG LC HO HS He H. unfold enc0_encode in H. apply bind_ok in H as (p & HP & H).
  apply bind_ok in H as (body & HB & H). apply bind_ok in HB as (ct & HE & HB). injection HB as <-.
  apply emit_trip in H; [|reflexivity|].
  2:{ repeat (apply Forall_cons; [try reflexivity|]); [..|apply Forall_nil]. apply uhdr_data. apply HO. }
  cbn [map] in H. rewrite wire_dict in H. cbn [wire] in H.
  destruct (core_trip c p (HMsg (tstr c)) (Some ct) (VBytes ct) [] HO HP eq_refl) as (c' & HC & HA & HPL & _).
  destruct (enc_trip "Encrypt0" c c' kr ct LG LC HA HPL HS HE) as (pl & HPc & HDc).
  exists c', pl. split; [|auto]. unfold decode. rewrite H. unfold from_cose_obj. cbn [N.eqb Pos.eqb]. unfold enc0_from_obj. rewrite HC.
  cbn [bind]. destruct He as [-> | ->]; reflexivity.
Qed.
End Trip.
