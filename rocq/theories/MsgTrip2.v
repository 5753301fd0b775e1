(** Constructed headers, algorithm names on the wire, encodings without cryptography. *)
From Coq Require Import NArith ZArith Bool String Lia.
From Coq Require Import Init.Byte List.
From Verif Require Import Bytes BytesProofs Value ValueProofs Cbor CborProofs SpecData DataProofs Registry
  RegistryProofs Crypto SpecCrypto Keys Algorithms Headers Messages Recipients SpecRegistry SpecKeys SpecHdr HdrProofs HdrProofs2 MiscProofs
  SpecTrip KeyTrip KeyTrip2 SpecAlg KeyProofs2 AlgProofs SpecMsg HdrTrip MsgTrip.
Import ListNotations.
Local Open Scope result_scope.

Section Trip.
Variable X : crypto.

Lemma given_step : forall allow a v a' w, given_header X a v -> from_id FHdr allow a = Ok a' -> parse_value X a' v = Ok w ->
  header_ok X a' w.
Proof.
  intros allow a v a' w H HF HP.
  assert (HS : forall c n, In (c, n) (registered FHdr) -> spells c n a -> a' = VClass c).
  { intros c n HI HSp. rewrite (from_id_spells FHdr allow c n a HI HSp) in HF. congruence. }
  destruct H.
  - rewrite (HS _ _ H H0) in *. apply (HO_alg X). cbn [parse_value] in HP.
    rewrite (from_id_spells FAlg false c m v H1 H2) in HP. injection HP as <-. exists c, m. auto.
  - rewrite (HS _ _ H H0) in *. cbn [parse_value] in HP. assert (w = v) by (destruct H1 as (l & -> & _); cbn [crit_is_array] in HP;
      match type of HP with (if ?b then _ else _) = _ => destruct b end; congruence). subst w. apply (HO_crit X). assumption.
  - rewrite (HS _ _ H H0) in *. cbn [parse_value] in HP. assert (w = v).
    { destruct H1 as [(z & -> & _)|(u & ->)]; cbn [content_type_is_uint_or_tstr as_int] in HP; [destruct (z <? 0)%Z|]; congruence. }
    subst w. apply (HO_type X). assumption.
  - rewrite (HS _ _ H0 H1) in *. replace w with (VBytes b); [apply (HO_bytes X); assumption|].
    cbn [In bstr_headers] in H. intuition subst; cbn [parse_value is_bstr is_bytes] in HP; congruence.
  - rewrite (HS _ _ H0 H1) in *. replace w with (kval k); [apply (HO_key X); assumption|].
    cbn [In] in H. intuition subst; cbn [parse_value] in HP; rewrite H2 in HP; cbn [bind] in HP; congruence.
  - rewrite (HS _ _ H H1) in *. replace w with v; [eapply HO_other; eassumption|].
    assert (HX : header_ok X (VClass c) v) by (eapply HO_other; eassumption).
    destruct (header_wire X HNone _ _ HX) as (_ & w' & HW & HSV). rewrite (wire_plain _ _ _ H2) in HW.
    rewrite HW in HP. injection HP as ->. destruct HSV as [->|([E|E] & _)]; [reflexivity| |].
    + injection E as ->. elim H0. cbn. tauto.
    + injection E as ->. elim H0. cbn. tauto.
  - destruct (from_id_unknown _ _ H) as [HT HN]. destruct allow; [rewrite HT in HF|rewrite HN in HF; discriminate].
    injection HF as <-. injection HP as <-. apply HO_int; assumption.
  - destruct (from_id_unknown _ _ H) as [HT HN]. destruct allow; [rewrite HT in HF|rewrite HN in HF; discriminate].
    injection HF as <-. injection HP as <-. apply HO_text; assumption.
Qed.

Lemma sendable_dset : forall h a v, sendable X h -> header_ok X a v -> sendable X (dset h a v).
Proof.
  intros h a v [HD HF] HO. split.
  - clear HO. induction h as [|[b w] h IH]; [reflexivity|]. cbn [dset]. inversion HF as [|? ? H1 H2]; subst.
    cbn [distinct_keys] in HD. apply andb_true_iff in HD as [HN HD]. destruct (keyeq a b) eqn:E.
    + cbn [distinct_keys]. rewrite HN, HD. reflexivity.
    + cbn [distinct_keys]. rewrite (IH HD H2), andb_true_r. apply negb_true_iff. apply negb_true_iff in HN.
      clear - HN E. induction h as [|[d x] h IH]; cbn [dset existsb fst] in *.
      * rewrite keyeq_sym, E. reflexivity.
      * apply orb_false_iff in HN as [H1 H2]. destruct (keyeq a d) eqn:E'; cbn [existsb fst]; rewrite ?H1; cbn [orb]; auto.
  - pose proof (header_label _ _ _ HO) as HL. clear HD. induction h as [|[b w] h IH]; [repeat constructor; assumption|].
    inversion HF as [|? ? H1 H2]; subst. cbn [dset]. destruct (keyeq a b) eqn:E; constructor; auto.
    cbn [fst snd] in *. rewrite <- (hlabel_keyeq a b HL (header_label _ _ _ H1) E). assumption.
Qed.

Lemma given_parse : forall allow d acc h, given_headers X d -> sendable X acc -> parse_items X allow d acc = Ok h -> sendable X h.
Proof.
  intros allow d. induction d as [|[k v] d IH]; intros acc h HG HS H; cbn [parse_items] in H.
  - injection H as <-. assumption.
  - inversion HG as [|? ? H1 H2]; subst. cbn [fst snd] in H1. apply bind_ok in H as (a & HA & H). apply bind_ok in H as (w & HW & H).
    apply (IH _ _ H2) in H; [assumption|]. apply sendable_dset; [assumption|]. eapply given_step; eassumption.
Qed.

Lemma sendable_nil : sendable X [].
Proof. split; [reflexivity|constructor]. Qed.

Lemma constructed_headers : forall a c dp du, core_init X a = Ok c ->
  protected_map (a_phdr a) (a_phdr_encoded a) dp -> unprotected_map (a_uhdr a) du ->
  (a_phdr_encoded a = VNone -> given_headers X dp) -> (a_phdr_encoded a <> VNone -> a_allow a = true) ->
  given_headers X du -> headers_ok X c.
Proof.
  intros a c dp du H HP HU HG HAl HGU. unfold core_init in H. apply bind_ok in H as (ph & HPH & H).
  destruct ph; try discriminate. destruct (match a_uhdr a with VNone => VDict [] | u => u end) eqn:EU; try discriminate.
  apply bind_ok in H as (p & HPP & H). apply bind_ok in H as (u & HUU & H). apply bind_ok in H as (raw & HR & H).
  repeat (apply bind_ok in H as (? & _ & H)). injection H as <-.
  assert (d0 = du). { destruct HU as [E|[E ->]]; rewrite E in EU; congruence. } subst d0.
  split; [|eapply given_parse; [eassumption|apply sendable_nil|eassumption]].
  unfold protected_ok. cbn [phdr_raw phdr]. destruct HP as [[E1 E2]|[(E1 & b & E2 & HL)|(E1 & E2 & ->)]].
  - rewrite E1, E2 in *. injection HPH as ->. injection HR as <-. eapply given_parse; [apply HG; reflexivity|apply sendable_nil|eassumption].
  - rewrite E1, E2 in *. injection HR as <-. rewrite HAl in HPP by discriminate. right. exists d.
    split; [|assumption]. destruct (veqb (VBytes b) (VBytes [])) eqn:EV.
    + apply veqb_eq in EV. injection EV as ->. elim (loads_nil _ HL).
    + exact HPH.
  - rewrite E1 in *. destruct E2 as [E2|E2]; rewrite E2 in *.
    + injection HPH as <-. injection HPP as <-. injection HR as <-. apply sendable_nil.
    + injection HPH as <-. injection HPP as <-. injection HR as <-. left. auto.
Qed.

(** ** C30 *)

Lemma dget_W_hdr : forall h s c n, Forall (fun e => hlabel (fst e)) s -> In (c, n) (registered FHdr) ->
  dget (W h s) (VInt (c_id c)) = option_map (wire cls_fullname h) (dget s (VClass c)).
Proof.
  intros h s c n H HI. induction H as [|[a v] s HA HS IH]; [reflexivity|]. cbn [map dget wire_pair fst snd].
  assert (HM : hlabel (VClass c)) by (left; eauto).
  pose proof (wire_hlabel_eq h (VClass c) a HM HA) as E. rewrite (wire_class h c) in E by (eapply hdr_not_alg; eassumption).
  cbn [fst] in *. rewrite E. destruct (keyeq (VClass c) a); [reflexivity|assumption].
Qed.

Lemma alg_registered_fam : forall a n, In (a, n) (registered FAlg) -> c_fam a = FAlg.
Proof. intros a n H. eapply registered_fam; [eassumption|auto]. Qed.

Lemma wire_alg : forall t a n, In (a, n) (registered FAlg) ->
  wire cls_fullname (HMsg t) (VClass a) = if t then VStr n else VInt (c_id a).
Proof.
  intros t a n H. cbn [wire]. destruct t; [|reflexivity]. destruct (fam_eq_dec (c_fam a) FAlg) as [_|HN].
  - rewrite (cls_fullname_registered _ _ _ H). reflexivity.
  - elim HN. eapply alg_registered_fam; eassumption.
Qed.

Lemma alg_on_wire : forall c p a n, phdr_raw c = None -> sendable X (phdr c) -> phdr_encoded c = Ok p ->
  dget (phdr c) Algorithm = Some (VClass a) -> In (a, n) (registered FAlg) ->
  exists d, loads_bytes p = Ok (VDict d) /\ dget d (VInt 1) = Some (if tstr c then VStr n else VInt (c_id a)).
Proof.
  intros c p a n HR HS HE HG HI. unfold phdr_encoded in HE. rewrite HR in HE. destruct (phdr c) as [|e r] eqn:EP; [discriminate|].
  remember (e :: r) as s eqn:Es. clear Es EP. exists (W (HMsg (tstr c)) s). split.
  - pose proof (loads_dumps_wire cls_fullname (HMsg (tstr c)) (VDict s) p []) as HL.
    rewrite wire_dict, app_nil_r in HL. exact (HL (sendable_data X _ s HS) HE).
  - destruct (hdr_known 1) as [m Hm]; [reflexivity|]. change 1%Z with (c_id (Cls FHdr 1)).
    rewrite (dget_W_hdr _ s (Cls FHdr 1) m (hdrs_labels _ _ (proj2 HS)) Hm).
    change (VClass (Cls FHdr 1)) with Algorithm. rewrite HG. cbn [option_map]. rewrite (wire_alg _ _ _ HI). reflexivity.
Qed.

(** ** C56 *)

Lemma enc0_plain_trip : forall c b e, headers_ok X c -> e = None \/ e = Some 16%N -> enc0_encode X c true false = Ok b ->
  exists c', decode X e true (VBytes b) = Ok (MEnc0 c') /\ arrived c c' /\ payload c' = payload c.
Proof.
  intros c b e HO He H. unfold enc0_encode in H. apply bind_ok in H as (p & HP & H). cbn [bind] in H.
  apply emit_trip in H; [|reflexivity|].
  2:{ repeat (apply Forall_cons; [try reflexivity|]); [..|apply Forall_nil]; [apply (uhdr_data X); apply HO|rewrite vopt_wire; apply vopt_data]. }
  cbn [map] in H. rewrite wire_dict, vopt_wire in H. cbn [wire] in H.
  destruct (core_trip X c p (HMsg (tstr c)) (payload c) (vopt (payload c)) [] HO HP (vopt_check _)) as (c' & HC & HA & HPL & _).
  exists c'. split; [|auto]. unfold decode. rewrite H. unfold from_cose_obj. cbn [N.eqb Pos.eqb]. unfold enc0_from_obj. rewrite HC.
  cbn [bind]. destruct He as [-> | ->]; reflexivity.
Qed.

Lemma encm_plain_trip : forall n m b e, headers_ok X (e_core m) -> e_rcpts m = [] -> e = None \/ e = Some 96%N ->
  snd (encm_encode X n m true false) = Ok b ->
  exists m', decode X e true (VBytes b) = Ok (MEnc m') /\ arrived (e_core m) (e_core m') /\
    payload (e_core m') = payload (e_core m) /\ e_rcpts m' = [].
Proof.
  intros n m b e HO HR He H. unfold encm_encode in H. destruct (phdr_encoded (e_core m)) as [p|] eqn:HP; [|discriminate].
  rewrite HR in H. cbn [snd] in H. set (c := e_core m) in *.
  apply emit_trip in H; [|reflexivity|].
  2:{ repeat (apply Forall_cons; [try reflexivity|]); [..|apply Forall_nil]; [apply (uhdr_data X); apply HO|rewrite vopt_wire; apply vopt_data]. }
  cbn [map] in H. rewrite wire_dict, vopt_wire in H. cbn [wire] in H.
  destruct (core_trip X c p (HMsg (tstr c)) (payload c) (vopt (payload c)) [] HO HP (vopt_check _)) as (c' & HC & HA & HPL & _).
  exists (EncMsg c' []). split; [|auto]. unfold decode. rewrite H. unfold from_cose_obj. cbn [N.eqb Pos.eqb].
  unfold enc_from_obj. rewrite HC. cbn [bind recipients_from is_value_error orb].
  destruct He as [-> | ->]; reflexivity.
Qed.

Lemma sign1_plain_trip : forall seed m d b s e, headers_ok X (s1_core m) -> s1_sig m = VBytes s -> s <> [] ->
  e = None \/ e = Some 18%N -> sign1_encode X seed m true false d = Ok b ->
  exists c', decode X e true (VBytes b) = Ok (MSign1 (Sign1 c' (VBytes s))) /\ arrived (s1_core m) c' /\
    payload c' = payload (s1_core m).
Proof.
  intros seed m d b s e HO HS HN He H. unfold sign1_encode in H. apply bind_ok in H as (p & HP & H).
  rewrite HS in H. replace (truthy (VBytes s)) with true in H by (destruct s; [elim HN; reflexivity|reflexivity]).
  cbn [bind app] in H. set (c := s1_core m) in *.
  apply emit_trip in H; [|reflexivity|].
  2:{ repeat (apply Forall_cons; [try reflexivity|]); [..|apply Forall_nil]; [apply (uhdr_data X); apply HO|rewrite vopt_wire; apply vopt_data]. }
  cbn [map] in H. rewrite wire_dict, vopt_wire in H. cbn [wire] in H.
  destruct (core_trip X c p (HMsg (tstr c)) (payload c) (vopt (payload c)) [VBytes s] HO HP (vopt_check _)) as (c' & HC & HA & HPL & _).
  exists c'. split; [|auto]. unfold decode. rewrite H. unfold from_cose_obj. cbn [N.eqb Pos.eqb]. unfold sign1_from_obj. rewrite HC.
  cbn [bind]. destruct He as [-> | ->]; reflexivity.
Qed.

(** Three items only: the signature, the tag or the signers are missing. *)
Lemma three_items : forall c t b e, headers_ok X c -> In t [17; 18; 97; 98]%N ->
  (exists p, phdr_encoded c = Ok p /\ emit c t true [VBytes p; VDict (uhdr c); vopt (payload c)] = Ok b) ->
  decode X e true (VBytes b) = Err IndexError.
Proof.
  intros c t b e HO HI (p & HP & H). apply emit_trip in H.
  2:{ cbn [In] in HI. intuition subst; reflexivity. }
  2:{ repeat (apply Forall_cons; [try reflexivity|]); [..|apply Forall_nil]; [apply (uhdr_data X); apply HO|rewrite vopt_wire; apply vopt_data]. }
  cbn [map] in H. rewrite wire_dict, vopt_wire in H. cbn [wire] in H.
  destruct (core_trip X c p (HMsg (tstr c)) (payload c) (vopt (payload c)) [] HO HP (vopt_check _)) as (c' & HC & _).
  unfold decode. rewrite H. unfold from_cose_obj, mac0_from_obj, sign1_from_obj, mac_from_obj, sign_from_obj.
  rewrite HC. cbn [In] in HI. repeat (destruct HI as [<-|HI]; [reflexivity|]). destruct HI.
Qed.

Lemma sign1_unsigned : forall seed m d b e, headers_ok X (s1_core m) -> s1_sig m = VBytes [] ->
  sign1_encode X seed m true false d = Ok b -> decode X e true (VBytes b) = Err IndexError.
Proof.
  intros seed m d b e HO HS H. unfold sign1_encode in H. apply bind_ok in H as (p & HP & H).
  rewrite HS in H. cbn [truthy bind] in H. eapply three_items; [exact HO|right; left; reflexivity|]. exists p. split; [exact HP|exact H].
Qed.

Lemma mac0_unmaced : forall m b e, headers_ok X (m0_core m) ->
  snd (mac0_encode X m true false) = Ok b -> decode X e true (VBytes b) = Err IndexError.
Proof.
  intros m b e HO H. unfold mac0_encode in H. destruct (phdr_encoded (m0_core m)) as [p|] eqn:HP; [|discriminate].
  eapply three_items; [exact HO|left; reflexivity|]. exists p. split; [exact HP|exact H].
Qed.

Lemma sign_no_signers : forall seed m d b e, headers_ok X (sm_core m) -> sm_signers m = [] ->
  sign_encode X seed m true d = Ok b -> decode X e true (VBytes b) = Err IndexError.
Proof.
  intros seed m d b e HO HS H. unfold sign_encode in H. apply bind_ok in H as (p & HP & H).
  rewrite HS in H. cbn [bind] in H. eapply three_items; [exact HO|right; right; right; left; reflexivity|]. exists p. split; [exact HP|exact H].
Qed.

Lemma macm_unmaced : forall n m b e, headers_ok X (mm_core m) -> mm_rcpts m = Some [] ->
  snd (macm_encode X n m true false) = Ok b -> decode X e true (VBytes b) = Err IndexError.
Proof.
  intros n m b e HO HS H. unfold macm_encode in H. destruct (phdr_encoded (mm_core m)) as [p|] eqn:HP; [|discriminate].
  rewrite HS in H. eapply three_items; [exact HO|right; right; left; reflexivity|]. exists p. split; [exact HP|exact H].
Qed.

(** ** Whatever is decoded has the headers that were sent *)

Lemma emit_loads : forall c t p pv rest b, emit c t true (VBytes p :: VDict (uhdr c) :: pv :: rest) = Ok b ->
  sendable X (uhdr c) -> reserved_tag t = false -> (exists pl, pv = vopt pl) -> Forall (fun v => data_value false (wire cls_fullname (HMsg (tstr c)) v) = true) rest ->
  loads_bytes b = Ok (VTag t (VList (VBytes p :: VDict (W (HMsg (tstr c)) (uhdr c)) :: pv :: map (wire cls_fullname (HMsg (tstr c))) rest))).
Proof.
  intros c t p pv rest b H HO HT [pl ->] HR. apply emit_trip in H; [|exact HT|].
  2:{ apply Forall_cons; [reflexivity|]. apply Forall_cons; [apply (uhdr_data X); apply HO|].
      apply Forall_cons; [rewrite vopt_wire; apply vopt_data|assumption]. }
  cbn [map] in H. rewrite wire_dict, vopt_wire in H. exact H.
Qed.

Lemma signers_data : forall h m d ss seed vs, Forall (headers_ok X) ss -> signers_encode X seed (Some m) ss d = Ok vs ->
  Forall (fun v => data_value false (wire cls_fullname h v) = true) vs.
Proof.
  intros h m d ss seed vs HF. revert seed vs. induction HF as [|s ss HO HF IH]; intros seed vs H.
  - injection H as <-. constructor.
  - cbn [signers_encode] in H. apply bind_ok in H as (v & H1 & H). apply bind_ok in H as (vs' & H2 & H). injection H as <-.
    constructor; [|eauto]. unfold signer_encode in H1. apply bind_ok in H1 as (p & HP & H1). apply bind_ok in H1 as (sg & HS & H1).
    injection H1 as <-. cbn [wire data_value negb andb map forallb]. rewrite andb_true_r. apply (uhdr_data X s h). apply HO.
Qed.

Lemma sent_loads : forall c b, headers_ok X c -> sent X c b ->
  exists t p pl rest, phdr_encoded c = Ok p /\
    loads_bytes b = Ok (VTag t (VList (VBytes p :: VDict (W (HMsg (tstr c)) (uhdr c)) :: vopt pl :: rest))).
Proof.
  intros c b HO HD. destruct HD as [seed m sign d b H HB|seed m d b H HS|c encrypt b H|m mac b H].
  - unfold sign1_encode in H. apply bind_ok in H as (p & HP & H). apply bind_ok in H as (items & HI & H).
    assert (HX : exists rest, items = VBytes p :: VDict (uhdr (s1_core m)) :: vopt (payload (s1_core m)) :: rest /\
      Forall (fun v => data_value false (wire cls_fullname (HMsg (tstr (s1_core m))) v) = true) rest).
    { destruct sign; [apply bind_ok in HI as (s & _ & HI)|destruct HB as [sg HB]; rewrite HB in HI; destruct (truthy (VBytes sg))];
        injection HI as <-; eexists; (split; [reflexivity|]); repeat constructor. }
    destruct HX as (rest & -> & HR). exists 18%N, p. do 2 eexists. split; [exact HP|].
    apply (emit_loads _ _ _ _ _ _ H (proj2 HO) eq_refl (ex_intro _ _ eq_refl) HR).
  - unfold sign_encode in H. apply bind_ok in H as (p & HP & H). apply bind_ok in H as (items & HI & H).
    assert (HX : exists rest, items = VBytes p :: VDict (uhdr (sm_core m)) :: vopt (payload (sm_core m)) :: rest /\
      Forall (fun v => data_value false (wire cls_fullname (HMsg (tstr (sm_core m))) v) = true) rest).
    { destruct (sm_signers m) as [|s0 ss] eqn:ES; [injection HI as <-; eexists; split; [reflexivity|constructor]|].
      rewrite <- ES in *. apply bind_ok in HI as (vs & HV & HI). injection HI as <-. eexists. split; [reflexivity|].
      constructor; [|constructor]. cbn [wire data_value negb andb]. apply forallb_forall. intros v HI. apply in_map_iff in HI as (w & <- & HI).
      pose proof (signers_data (HMsg (tstr (sm_core m))) _ _ _ _ _ HS HV) as HF. rewrite Forall_forall in HF. auto. }
    destruct HX as (rest & -> & HR). exists 98%N, p. do 2 eexists. split; [exact HP|].
    apply (emit_loads _ _ _ _ _ _ H (proj2 HO) eq_refl (ex_intro _ _ eq_refl) HR).
  - unfold enc0_encode in H. apply bind_ok in H as (p & HP & H). apply bind_ok in H as (body & HB & H).
    assert (HX : exists pl, body = vopt pl).
    { destruct encrypt; [apply bind_ok in HB as (ct & _ & HB); injection HB as <-; exists (Some ct)|injection HB as <-; exists (payload c)]; reflexivity. }
    destruct HX as [pl ->]. exists 16%N, p. do 2 eexists. split; [exact HP|].
    apply (emit_loads _ _ _ _ [] _ H (proj2 HO) eq_refl (ex_intro _ _ eq_refl) (Forall_nil _)).
  - unfold mac0_encode, mac0_compute_tag in H. destruct (phdr_encoded (m0_core m)) as [p|] eqn:HP; [|discriminate].
    exists 17%N, p. destruct mac.
    + destruct (mac_compute X "MAC0" (m0_core m)) as [t|] eqn:ET; [|discriminate]. cbn [snd] in H. do 2 eexists. split; [reflexivity|].
      refine (emit_loads _ _ _ _ _ _ H (proj2 HO) eq_refl (ex_intro _ _ eq_refl) _). repeat constructor.
    + cbn [snd] in H. do 2 eexists. split; [reflexivity|].
      refine (emit_loads _ _ _ _ _ _ H (proj2 HO) eq_refl (ex_intro _ _ eq_refl) _). repeat constructor.
Qed.

Lemma delivered_arrived : forall c c', headers_ok X c -> delivered X c c' -> arrived c c'.
Proof.
  intros c c' HO (b & e & m' & HS & HD & ->). apply sent_loads in HS as (t & p & pl & rest & HP & H); [|assumption].
  apply decode_inv in HD as (b' & obj & E & HL & _ & _ & rest' & HC). injection E as <-.
  rewrite H in HL. injection HL as _ <-.
  destruct (core_trip X c p (HMsg (tstr c)) pl (vopt pl) rest HO HP (vopt_check _)) as (c' & HC' & HA & _).
  rewrite HC' in HC. injection HC as <- _. exact HA.
Qed.

Lemma unprotected_alg_on_wire : forall c b a n, headers_ok X c -> sent X c b ->
  dget (uhdr c) Algorithm = Some (VClass a) -> In (a, n) (registered FAlg) ->
  exists t p d rest, loads_bytes b = Ok (VTag t (VList (VBytes p :: VDict d :: rest))) /\
    dget d (VInt 1) = Some (if tstr c then VStr n else VInt (c_id a)).
Proof.
  intros c b a n HO HS HG HI. apply sent_loads in HS as (t & p & pl & rest & _ & HL); [|assumption].
  exists t, p, (W (HMsg (tstr c)) (uhdr c)), (vopt pl :: rest). split; [exact HL|].
  destruct (hdr_known 1) as [m Hm]; [reflexivity|]. change 1%Z with (c_id (Cls FHdr 1)).
  rewrite (dget_W_hdr _ (uhdr c) (Cls FHdr 1) m (hdrs_labels _ _ (proj2 (proj2 HO))) Hm).
  change (VClass (Cls FHdr 1)) with Algorithm. rewrite HG. cbn [option_map]. rewrite (wire_alg _ _ _ HI). reflexivity.
Qed.

Lemma unknown_class : forall f c n, In (c, n) (registered f) -> ~ unknown_attr f (VClass c).
Proof. intros f c n HI HU. apply (unknown_not_spelled _ _ _ _ HU HI). reflexivity. Qed.

Lemma hdr_in : forall z, existsb (Z.eqb z) [1; 2; 3; -1; -2; 4; 5; 6; 9; 10]%Z = true -> ~ unknown_attr FHdr (hdr z).
Proof. intros z H. destruct (hdr_known z H) as [n Hn]. eapply unknown_class; eassumption. Qed.

(** A header that is not a key arrives as it is. *)
Lemma arrived_value : forall c c' a, arrived c c' -> keyeq a EphemeralKey = false -> keyeq a StaticKey = false ->
  dget (phdr c') a = dget (phdr c) a /\ dget (uhdr c') a = dget (uhdr c) a.
Proof.
  intros c c' a (HP & HU & _) N1 N2.
  assert (HX : forall h h', same_headers h h' -> dget h' a = dget h a).
  { intros h h' HS. pose proof (same_headers_get _ _ a HS) as G. destruct (dget h a), (dget h' a); try contradiction; [|reflexivity].
    destruct G as (b & HK & [->|([->| ->] & _)]); congruence. }
  split; auto.
Qed.
End Trip.
