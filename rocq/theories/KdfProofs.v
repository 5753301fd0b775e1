(** Lemmas about the KDF context. *)
From Coq Require Import NArith ZArith Bool String Lia ZifyBool ZifyNat ZifyN.
From Coq Require Import Init.Byte List.
From Verif Require Import Bytes BytesProofs Value Cbor CborProofs ValueProofs SpecData DataProofs
  Registry Crypto Keys Algorithms Headers Messages Recipients SpecRfc SpecStruct StructProofs.
Import ListNotations.
Local Open Scope N_scope.
Local Open Scope result_scope.

Definition kdf_opt (v : pyval) : list pyval := if veqb v (VBytes []) then [] else [v].

Lemma kdf_opt_inj : forall a b, kdf_opt a = kdf_opt b -> a = b.
Proof.
  intros a b H. unfold kdf_opt in H.
  destruct (veqb a (VBytes [])) eqn:Ea, (veqb b (VBytes [])) eqn:Eb; try discriminate.
  - apply veqb_eq in Ea, Eb. congruence.
  - congruence.
Qed.

Lemma kdf_opt_data : forall v, data_value false v = true -> forallb (data_value false) (kdf_opt v) = true.
Proof.
  intros v H. unfold kdf_opt. destruct (veqb v (VBytes [])); [reflexivity|]. cbn [forallb].
  rewrite H. reflexivity.
Qed.

Lemma kdf_encode_inv : forall k t, kdf_encode k = Ok t ->
  exists i p, identifier_of (kc_alg k) = Some i /\
    dumps cls_fullname HIdent (VDict (kc_protected k)) = Ok p /\
    dumps_plain (VList ([VInt i; VList (kc_u k); VList (kc_v k);
      VList ([VInt (Z.of_nat (kc_len k) * 8); VBytes p] ++ kdf_opt (kc_pub_other k))]
      ++ kdf_opt (kc_priv k))) = Ok t.
Proof.
  intros k t H. unfold kdf_encode in H. destruct (identifier_of (kc_alg k)) as [i|]; [|discriminate].
  apply bind_ok in H as (p & HP & H). exists i, p. auto.
Qed.

Lemma kdf_inj : forall k1 k2 t,
  kdf_plain k1 = true -> kdf_plain k2 = true ->
  kdf_encode k1 = Ok t -> kdf_encode k2 = Ok t ->
  identifier_of (kc_alg k1) = identifier_of (kc_alg k2) /\
  kc_u k1 = kc_u k2 /\ kc_v k1 = kc_v k2 /\ kc_len k1 = kc_len k2 /\
  (exists p, dumps cls_fullname HIdent (VDict (kc_protected k1)) = Ok p /\
             dumps cls_fullname HIdent (VDict (kc_protected k2)) = Ok p) /\
  kc_pub_other k1 = kc_pub_other k2 /\ kc_priv k1 = kc_priv k2.
Proof.
  intros k1 k2 t P1 P2 H1 H2.
  apply kdf_encode_inv in H1 as (i1 & p1 & I1 & D1 & H1).
  apply kdf_encode_inv in H2 as (i2 & p2 & I2 & D2 & H2).
  unfold kdf_plain in P1, P2. rewrite !andb_true_iff in P1, P2.
  destruct P1 as [[[U1 V1] O1] R1], P2 as [[[U2 V2] O2] R2].
  apply kdf_opt_data in O1, O2, R1, R2.
  unfold dumps_plain in H1, H2.
  eapply (loads_bytes_dumps cls_fullname _ _ _ []) in H1;
    [|cbn [data_value forallb app negb andb]; rewrite U1, V1, O1, R1; reflexivity].
  eapply (loads_bytes_dumps cls_fullname _ _ _ []) in H2;
    [|cbn [data_value forallb app negb andb]; rewrite U2, V2, O2, R2; reflexivity].
  rewrite H1 in H2. cbn [app] in H2. injection H2 as Hi HU HV HL HP HO HR.
  apply kdf_opt_inj in HO, HR.
  split; [congruence|]. split; [assumption|]. split; [assumption|]. split; [lia|].
  split; [|auto]. exists p1. split; congruence.
Qed.

(** *** RFC form *)

Lemma get_key_length_id : forall alg n, get_key_length alg = Ok n ->
  exists i, identifier_of alg = Some i /\ (-100 <= i <= 100)%Z.
Proof.
  intros alg n H.
  destruct alg as [|b|z|f|s| | |b|b|l|l|d|t v|t v|[f z]|kc ks ke]; try discriminate H.
  destruct f; try discriminate H. exists z. split; [reflexivity|].
  unfold get_key_length, alg_kind in H.
  destruct (find (fun e => Z.eqb (fst e) z) alg_defs) as [[z' k]|] eqn:E; [|discriminate].
  pose proof (find_some _ _ E) as [HI HZ]. cbn [fst] in HZ. apply Z.eqb_eq in HZ. subst z'.
  cbn [snd] in H.
  unfold alg_defs in HI. cbn [In] in HI.
  repeat (destruct HI as [HI|HI]; [injection HI as <- <-; try discriminate H; lia|]).
  destruct HI.
Qed.

Lemma get_key_length_small : forall alg n, get_key_length alg = Ok n ->
  (n = 16 \/ n = 24 \/ n = 32)%nat.
Proof.
  intros alg n H. unfold get_key_length, alg_kind in H.
  destruct alg as [|b|z|f|s| | |b|b|l|l|d|t v|t v|[f z]|kc ks ke]; try discriminate H.
  destruct f; try discriminate H.
  destruct (find (fun e => Z.eqb (fst e) z) alg_defs) as [[z' k]|] eqn:E; [|discriminate].
  pose proof (find_some _ _ E) as [HI _]. cbn [snd] in H.
  unfold alg_defs in HI. cbn [In] in HI.
  repeat (destruct HI as [HI|HI];
    [injection HI as <- <-; try discriminate H; vm_compute in H; injection H as <-; auto|]).
  destruct HI.
Qed.

(** Without keys in the header, the hook that only knows identifiers agrees with the
    message hook. *)
Lemma lower_ident_msg : forall v c, lower cls_fullname HIdent v = Ok c ->
  lower cls_fullname (HMsg false) v = Ok c.
Proof.
  induction v as [|b|z|f|n| | |b|b|l HF|l HF|d HF|t v IH|t v IH|c|k s e HS HE] using pyval_ind';
    intros c0 HL; try exact HL; try discriminate HL.
  - cbn [lower] in *. apply bind_ok in HL as (cs & HL & E). injection E as <-.
    replace (mapM (lower cls_fullname (HMsg false)) l) with (@Ok (list cbor) cs); [reflexivity|].
    symmetry. apply mapM_Forall2. apply mapM_Forall2 in HL. revert HF.
    induction HL as [|x y l' cs' Hxy HL IHl]; intros HF; [constructor|].
    inversion HF as [|? ? Hx Hl']; subst. constructor; auto.
  - cbn [lower] in *. apply bind_ok in HL as (cs & HL & E). injection E as <-.
    replace (mapM (lower cls_fullname (HMsg false)) l) with (@Ok (list cbor) cs); [reflexivity|].
    symmetry. apply mapM_Forall2. apply mapM_Forall2 in HL. revert HF.
    induction HL as [|x y l' cs' Hxy HL IHl]; intros HF; [constructor|].
    inversion HF as [|? ? Hx Hl']; subst. constructor; auto.
  - rewrite lower_dict in *. apply bind_ok in HL as (cs & HL & E). injection E as <-.
    replace (mapM (lower_pair cls_fullname (HMsg false)) d) with (@Ok (list (cbor * cbor)) cs); [reflexivity|].
    symmetry. apply mapM_Forall2. apply mapM_Forall2 in HL. revert HF.
    induction HL as [|[k x] [k' x'] l' cs' Hxy HL IHl]; intros HF; [constructor|].
    inversion HF as [|? ? Hx Hl']; subst. destruct Hx as [Hk Hx]. cbn [fst snd] in *.
    constructor; [|auto]. cbn [lower_pair] in *.
    apply bind_ok in Hxy as (k1 & E1 & Hxy). apply bind_ok in Hxy as (x1 & E2 & Hxy).
    injection Hxy as -> ->. rewrite (Hk _ E1). cbn [bind]. rewrite (Hx _ E2). reflexivity.
  - cbn [lower] in *. apply bind_ok in HL as (c & HL & E). injection E as <-.
    rewrite (IH _ HL). reflexivity.
  - cbn [lower] in *. apply bind_ok in HL as (c & HL & E). injection E as <-.
    rewrite (IH _ HL). reflexivity.
  - cbn [lower lower_class] in *. rewrite andb_false_r. exact HL.
Qed.

Lemma dumps_ident_msg : forall v b, dumps cls_fullname HIdent v = Ok b ->
  dumps cls_fullname (HMsg false) v = Ok b.
Proof.
  intros v b H. apply dumps_ok in H as (c & HL & HW & ->).
  unfold dumps. rewrite (lower_ident_msg _ _ HL). cbn [bind]. rewrite HW. reflexivity.
Qed.

Definition copt (o : option bytes) : cbor := match o with Some b => CBytes b | None => CConst 22 end.

Lemma lower_vopt : forall h o, lower cls_fullname h (vopt o) = Ok (copt o).
Proof. intros h [b|]; reflexivity. Qed.

Lemma enc_copt_rfc : forall o, wfc (copt o) = true -> enc (copt o) = rfc_opt_bstr o.
Proof.
  intros [b|] H; [|reflexivity]. cbn [copt rfc_opt_bstr] in *. rewrite wfc_bytes in H.
  apply N.ltb_lt in H. apply enc_bytes_rfc. assumption.
Qed.

Lemma kdf_opt_present : forall b, kdf_opt (VBytes b) = map VBytes (opt_list (present b)).
Proof. intros [|x b]; reflexivity. Qed.

Lemma kdf_rfc : forall c alg ui un uo vi vn vo po pr k t i,
  get_kdf_context c alg = Ok k -> kdf_encode k = Ok t -> identifier_of alg = Some i ->
  phdr c <> [] -> phdr_raw c = None -> tstr c = false ->
  get_attr c PartyUID = Ok (vopt ui) -> get_attr c PartyUNonce = Ok (vopt un) ->
  get_attr c PartyUOther = Ok (vopt uo) ->
  get_attr c PartyVID = Ok (vopt vi) -> get_attr c PartyVNonce = Ok (vopt vn) ->
  get_attr c PartyVOther = Ok (vopt vo) ->
  dget_or (local c) SuppPubOther (VBytes []) = VBytes po ->
  dget_or (local c) SuppPrivOther (VBytes []) = VBytes pr ->
  exists len p, get_key_length alg = Ok len /\ phdr_encoded c = Ok p /\
    t = KDF_Context i (PartyInfo_structure ui un uo) (PartyInfo_structure vi vn vo)
          (8 * N.of_nat len) p (present po) (present pr).
Proof.
  intros c alg ui un uo vi vn vo po pr k t i HC HE HI HP HR HT Hui Hun Huo Hvi Hvn Hvo Hpo Hpr.
  unfold get_kdf_context in HC. rewrite Hui, Hun, Huo, Hvi, Hvn, Hvo in HC. cbn [bind] in HC.
  apply bind_ok in HC as (len & HL & HC). injection HC as <-.
  apply kdf_encode_inv in HE as (i' & p & HI' & HD & HE). cbn [kc_alg kc_u kc_v kc_len kc_protected
    kc_pub_other kc_priv] in *. rewrite HI in HI'. injection HI' as <-.
  exists len, p. split; [assumption|]. split.
  { unfold phdr_encoded, dumps_msg. rewrite HR, HT. destruct (phdr c); [congruence|].
    apply dumps_ident_msg. assumption. }
  rewrite Hpo, Hpr, !kdf_opt_present in HE.
  destruct (get_key_length_id _ _ HL) as (j & HJ & HB). rewrite HI in HJ. injection HJ as <-.
  apply get_key_length_small in HL.
  apply dumps_ok in HE as (ast & HLo & HW & ->).
  set (U := CArr [copt ui; copt un; copt uo]). set (V := CArr [copt vi; copt vn; copt vo]).
  set (S := CArr ([lower_int (Z.of_nat len * 8); CBytes p] ++ map CBytes (opt_list (present po)))).
  assert (EA : ast = CArr ([lower_int i; U; V; S] ++ map CBytes (opt_list (present pr)))).
  { unfold U, V, S. destruct (present po), (present pr), ui, un, uo, vi, vn, vo;
      cbn in HLo; injection HLo as <-; reflexivity. }
  subst ast. rewrite wfc_arr in HW. apply andb_true_iff in HW as [HN HW]. apply N.ltb_lt in HN.
  rewrite enc_arr_rfc by assumption.
  rewrite forallb_app in HW. apply andb_true_iff in HW as [HW HWp]. cbn [forallb] in HW.
  rewrite !andb_true_iff in HW. destruct HW as (_ & HU & HV & HS & _).
  unfold KDF_Context. rewrite map_app, enc_bstrs_rfc by assumption.
  assert (HParty : forall a b d, wfc (CArr [copt a; copt b; copt d]) = true ->
    enc (CArr [copt a; copt b; copt d]) = PartyInfo_structure a b d).
  { intros a b d W. rewrite wfc_arr in W. apply andb_true_iff in W as [Wn W]. cbn [forallb] in W.
    rewrite !andb_true_iff in W. destruct W as (Wa & Wb & Wd & _). apply N.ltb_lt in Wn.
    rewrite enc_arr_rfc by assumption. cbn [map]. unfold PartyInfo_structure.
    rewrite !enc_copt_rfc by assumption. reflexivity. }
  assert (HSupp : enc S = rfc_array ([rfc_uint (8 * N.of_nat len); rfc_bstr p] ++
     match present po with Some o => [rfc_bstr o] | None => [] end)).
  { unfold S in *. rewrite wfc_arr in HS. apply andb_true_iff in HS as [Wn W]. apply N.ltb_lt in Wn.
    rewrite enc_arr_rfc by assumption. rewrite forallb_app in W. apply andb_true_iff in W as [W Wo].
    cbn [forallb] in W. rewrite !andb_true_iff in W. destruct W as (_ & Wp & _).
    rewrite wfc_bytes in Wp. apply N.ltb_lt in Wp.
    rewrite map_app, enc_bstrs_rfc by assumption. cbn [map].
    rewrite enc_int_rfc by lia. rewrite enc_bytes_rfc by assumption.
    replace (rfc_int (Z.of_nat len * 8)) with (rfc_uint (8 * N.of_nat len)).
    - destruct (present po); reflexivity.
    - unfold rfc_int, rfc_uint. replace (Z.of_nat len * 8 <? 0)%Z with false by lia.
      f_equal. lia. }
  cbn [map]. rewrite enc_int_rfc by lia.
  unfold U, V in *. rewrite !HParty by assumption. rewrite HSupp.
  destruct (present pr); reflexivity.
Qed.
