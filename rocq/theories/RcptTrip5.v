(** Messages with direct recipients, and with direct key agreement. *)
From Coq Require Import NArith ZArith Bool String Lia.
From Coq Require Import Init.Byte List.
From Verif Require Import Bytes BytesProofs Value ValueProofs Cbor CborProofs SpecData DataProofs Registry
  RegistryProofs Crypto SpecCrypto Keys Algorithms Headers Messages Recipients SpecRegistry SpecKeys SpecHdr HdrProofs
  SpecTrip KeyTrip KeyTrip2 SpecAlg KeyProofs KeyProofs2 AlgProofs SpecMsg HdrTrip MsgTrip MsgTrip2 SpecRcpt RcptProofs RcptProofs2
  SpecRcptTrip RcptTrip RcptTrip2 RcptTrip3 RcptTrip4.
Import ListNotations.
Local Open Scope result_scope.

Section Trip.
Variable X : crypto.

Lemma mac_decodes : forall c p pl t n1 rs1 n2 rs2 vs b e, law_wrap_some X -> law_oaep_some X -> headers_ok X c ->
  Forall (fun r => headers_ok X (r_core r) /\ simple r) rs1 -> phdr_encoded c = Ok p ->
  rcpts_encode X n1 rs1 = ((n2, rs2), Ok vs) -> e = None \/ e = Some 97%N ->
  emit c 97 true [VBytes p; VDict (uhdr c); vopt pl; VBytes t; VList vs] = Ok b ->
  exists c' rrs, decode X e true (VBytes b) = Ok (MMac (MacMsg c' (VBytes t) (Some rrs))) /\ arrived c c' /\ payload c' = pl /\ all_land X rs1 rs2 rrs.
Proof.
  intros c p pl t n1 rs1 n2 rs2 vs b e LW LO HO HF HP HR He H.
  destruct (list_lands X (HMsg (tstr c)) (VStr (bs "Mac_Recipient")) rs1 n1 n2 rs2 vs 0%N LW LO HF HR) as (HD & rrs & HC & HL).
  apply (emit_loads X) in H; [|apply HO|reflexivity|eauto|constructor; [reflexivity|constructor; [apply list_data; exact HD|constructor]]].
  destruct (core_trip X c p (HMsg (tstr c)) pl (vopt pl) [VBytes t; VList (map (wire cls_fullname (HMsg (tstr c))) vs)] HO HP (vopt_check _))
    as (c' & HCo & HA & HPL & _).
  exists c', rrs. split; [|auto]. unfold decode. change (loads (VBytes b)) with (loads_bytes b). rewrite H. unfold from_cose_obj. cbn [N.eqb Pos.eqb].
  unfold mac_from_obj. cbn [map wire]. rewrite HCo. cbn [bind]. unfold recipients_from. cbn [py_iter bind]. rewrite HC. cbn [bind].
  destruct He as [-> | ->]; reflexivity.
Qed.

(** ** Direct recipients *)

Lemma direct_unchanged : forall rs n n' rs' vs, Forall direct rs -> rcpts_encode X n rs = ((n', rs'), Ok vs) -> rs' = rs.
Proof.
  induction rs as [|r rs IH]; intros n n' rs' vs HF H; [injection H as _ <- _; reflexivity|]. inversion_clear HF as [|? ? HD HF'].
  cbn [rcpts_encode] in H. destruct (rcpt_encode X n r) as [[n1 r'] [v|e]] eqn:ER; [|discriminate].
  destruct (rcpts_encode X n1 rs) as [[n2 l2] [vs2|e]] eqn:EL; [|discriminate]. injection H as _ <- _.
  apply IH in EL; [|exact HF']. subst l2. f_equal. apply encode_emits in ER as (p & w & tail & _ & _ & _ & _ & _ & HM).
  rewrite HD in HM. apply HM.
Qed.

Lemma direct_class : forall rs, rs <> [] -> Forall direct rs -> has_class RDirect rs = true.
Proof.
  intros [|r rs] HN H; [congruence|]. inversion_clear H as [|? ? HD _]. unfold has_class. cbn [existsb]. rewrite HD. reflexivity.
Qed.

Theorem enc_direct_trip : forall n m n' m2 b kr e, law_gcm X -> law_ccm X -> law_wrap_some X -> law_oaep_some X ->
  headers_ok X (e_core m) -> Forall (fun r => headers_ok X (r_core r) /\ simple r) (e_rcpts m) -> Forall direct (e_rcpts m) ->
  e_rcpts m <> [] -> shares (e_core m) (Cls FOps 4) kr -> e = None \/ e = Some 96%N ->
  encm_encode X n m true true = ((n', m2), Ok b) ->
  exists m' pl, decode X e true (VBytes b) = Ok (MEnc m') /\ arrived (e_core m) (e_core m') /\
    recipients_arrive (e_rcpts m) (e_rcpts m') /\ payload (e_core m) = Some pl /\
    forall r', In r' (e_rcpts m') ->
      snd (encm_decrypt X (EncMsg (equip (e_core m') kr (aad (e_core m))) (e_rcpts m')) r') = Ok pl.
Proof.
  intros n m n' m2 b kr e LG LC LW LO HO HF HD HN HSh He H. unfold encm_encode in H.
  destruct (phdr_encoded (e_core m)) as [p|er] eqn:EP; [|discriminate].
  destruct (encm_encrypt X n m) as [[n1 m1] x] eqn:EE. destruct x as [ct|er]; cbn [bind] in H; [|discriminate].
  unfold encm_encrypt in EE. destruct (bind (get_attr (e_core m) Algorithm) _) as [a|er] eqn:EA; [|discriminate].
  apply bind_ok in EA as (a' & HA & EA). apply bind_ok in EA as ([] & HV & EA). injection EA as ->.
  rewrite (direct_class _ HN HD) in EE. apply pair_equal_spec in EE as [EE1 EE2]. injection EE1 as <- <-.
  destruct (e_rcpts m) as [|r0 rs0] eqn:ERs; [congruence|]. rewrite <- ERs in *. clear r0 rs0 ERs. rewrite HA in H.
  destruct (rcpts_encode X n (e_rcpts m)) as [[n3 rs2] [vs|er]] eqn:ER; [|discriminate]. apply pair_equal_spec in H as [_ H].
  pose proof (direct_unchanged _ _ _ _ _ HD ER) as ->.
  destruct (enc_decodes X (e_core m) p (Some ct) n _ n3 _ vs b e LW LO HO HF EP ER He H) as (c' & rrs & HDe & HAr & HPL & HLa).
  destruct (enc_trip X "Encrypt" _ c' kr ct LG LC HAr HPL HSh EE2) as (pl & HPp & HDc).
  exists (EncMsg c' rrs), pl. split; [exact HDe|]. split; [exact HAr|]. split; [eapply all_land_arrive; exact HLa|]. split; [exact HPp|].
  cbn [e_core e_rcpts]. intros r' HI. unfold encm_decrypt. cbn [e_core e_rcpts]. destruct (all_land_classes X _ _ _ HLa) as [HCl _].
  destruct HSh as (z & _ & _ & HG & _).
  rewrite get_attr_equip, (alg_trip _ c' z HAr HG). rewrite has_recipient_search, (search_top (r_id r') rrs false r' HI eq_refl). cbn [negb].
  rewrite (verify_map _ _ HCl), HV, (has_class_map _ _ _ HCl), (direct_class _ HN HD). exact HDc.
Qed.

Theorem mac_direct_trip : forall n m rs n' m2 b kr e, law_wrap_some X -> law_oaep_some X ->
  headers_ok X (mm_core m) -> mm_rcpts m = Some rs -> Forall (fun r => headers_ok X (r_core r) /\ simple r) rs -> Forall direct rs ->
  rs <> [] -> shares (mm_core m) (Cls FOps 10) kr -> e = None \/ e = Some 97%N ->
  macm_encode X n m true true = ((n', m2), Ok b) ->
  exists m' rs', decode X e true (VBytes b) = Ok (MMac m') /\ arrived (mm_core m) (mm_core m') /\
    payload (mm_core m') = payload (mm_core m) /\ mm_rcpts m' = Some rs' /\ recipients_arrive rs rs' /\
    macm_verify_tag X (MacMsg (equip (mm_core m') kr (aad (mm_core m))) (mm_tag m') (mm_rcpts m')) = Ok true.
Proof.
  intros n m rs n' m2 b kr e LW LO HO ERs HF HD HN HSh He H. unfold macm_encode in H.
  destruct (phdr_encoded (mm_core m)) as [p|er] eqn:EP; [|discriminate].
  destruct (macm_compute_tag X n m) as [[n1 m1] x] eqn:EE. destruct x as [t|er]; cbn [bind] in H; [|discriminate].
  unfold macm_compute_tag in EE. destruct (get_attr (mm_core m) Algorithm) as [a|er] eqn:HA; [|discriminate]. rewrite ERs in EE.
  destruct (verify_recipients rs) as [[]|er] eqn:HV; [|discriminate]. rewrite (direct_class _ HN HD) in EE. unfold mac_super_compute in EE.
  destruct (mac_compute X "MAC" (mm_core m)) as [t'|er] eqn:EM; [|discriminate]. injection EE as <- <- <-. cbn [mm_core mm_rcpts mm_tag] in H.
  rewrite ERs in H. destruct rs as [|r0 rs0]; [congruence|]. set (rs := r0 :: rs0) in *. rewrite HA in H.
  destruct (rcpts_encode X n rs) as [[n3 rs2] [vs|er]] eqn:ER; [|discriminate]. apply pair_equal_spec in H as [_ H].
  pose proof (direct_unchanged _ _ _ _ _ HD ER) as ->. cbn [app] in H.
  destruct (mac_decodes (mm_core m) p (payload (mm_core m)) t' n _ n3 _ vs b e LW LO HO HF EP ER He H) as (c' & rrs & HDe & HAr & HPL & HLa).
  exists (MacMsg c' (VBytes t') (Some rrs)), rrs. split; [exact HDe|]. split; [exact HAr|]. split; [exact HPL|]. split; [reflexivity|].
  split; [eapply all_land_arrive; exact HLa|]. exact (mac_trip X "MAC" _ c' kr t' HAr HPL HSh EM).
Qed.

(** ** Direct key agreement *)

(** The key made from the agreed secret. *)
Definition agreed_key (b : bytes) (a : pyval) : key :=
  Key KSym [(VClass KpKty, KtySymmetric); (VClass KpAlg, a); (VClass SymKpK, VBytes b)] [].

Lemma agreed_init : forall z kd b k, alg_kind (alg z) = Some kd -> sym_init (VBytes b) (VDict [(VClass KpAlg, alg z)]) true = Ok k ->
  k = agreed_key b (alg z).
Proof.
  assert (H : forallb (fun e =>
      match common_init KSym (VDict [(VClass KpAlg, alg (fst e))]) true with
      | Ok (Key KSym s []) => veqb (VDict s) (VDict [(VClass KpKty, KtySymmetric); (VClass KpAlg, alg (fst e))])
      | _ => false end) alg_defs = true) by (vm_compute; reflexivity).
  intros z kd b k HK HS. apply kind_def in HK. apply existsb_exists in HK as (e & HI & E). apply Z.eqb_eq in E. subst z.
  rewrite forallb_forall in H. specialize (H _ HI). cbv beta in H. unfold sym_init in HS.
  destruct (common_init _ _ _) as [[kc s ex]|]; [|discriminate]. destruct kc; try discriminate. destruct ex; [|discriminate].
  apply veqb_eq in H. injection H as ->. cbn [bind] in HS. destruct (veqb (VBytes b) (VBytes [])); [discriminate|]. unfold set_k in HS.
  destruct (existsb _ _); [|discriminate]. injection HS as <-. reflexivity.
Qed.

Lemma same_param : forall k k' q, same_params k k' -> param k' q = param k q.
Proof. intros k k' q [_ H]. unfold param. apply H. Qed.

Lemma derive_verify : forall k z, k_cls k = KEC2 -> alg_ok k (Cls FAlg z) -> ops_ok k [Cls FOps 7; Cls FOps 8] ->
  key_verify k KEC2 (alg z) [DeriveKeyOp; DeriveBitsOp] = Ok tt.
Proof. intros k z HC HA HO. rewrite <- HC. exact (key_verify_ok k (Cls FAlg z) [Cls FOps 7; Cls FOps 8] HA HO). Qed.

Lemma agree_facts : forall z, In z [-25; -26; -27; -28]%Z ->
  alg_in (alg z) (ss_hkdf ++ es_hkdf) = Ok true /\ alg_in (alg z) ss_hkdf = Ok (negb (existsb (Z.eqb z) es_hkdf)) /\
  sender_header z = if existsb (Z.eqb z) es_hkdf then EphemeralKey else StaticKey.
Proof.
  intros z H. cbn [In] in H. repeat (destruct H as [<-|H]; [split; [reflexivity|split; reflexivity]|]). destruct H.
Qed.

(** Sender and receiver agree on the content key. *)
Lemma agree_trip : forall n r r' rr k lo target kc, law_ecdh X -> agree_holder X r k lo -> lands X n r r' rr ->
  agree_compute_cek X (r_core r) target false = Ok kc ->
  (exists z kd b, target = alg z /\ alg_kind target = Some kd /\ kc = agreed_key b target) /\
  agree_compute_cek X (r_core (equip_rcpt rr k lo)) target true = Ok kc.
Proof.
  intros n r r' rr k lo target kc LE (z & cv & pr & ks & p & v & HC & HZ & HG & HPr & HDk & HKs & HSh & HV & HPo & HDs & PA & PO & KA & KO & HNp & HSu) HL H.
  destruct HL as (_ & _ & L1 & L2 & LA & _ & LK1 & LK2 & w & LP & LM). rewrite HC in *.
  destruct LM as [_ LM]. rewrite (LM ltac:(congruence)) in LA. clear LM.
  destruct (agree_facts z HZ) as (F1 & F2 & F3).
  destruct (public_arrives X cv z (r_core r) (r_core rr) ks p v HSh HV HPo HDs LA LK1 LK2) as (p' & HSP & HGP).
  unfold agree_compute_cek in H. rewrite HG in H. cbn [bind] in H. rewrite F1 in H. cbn [bind negb] in H.
  unfold dget_or in H. rewrite HPr in H. replace (is_none (kval pr)) with false in H by (destruct pr; reflexivity). rewrite peer_kval in H. cbn [bind] in H.
  apply bind_ok in H as (u1 & _ & H). rewrite HKs in H. cbn [bind] in H. apply bind_ok in H as (u2 & _ & H). apply bind_ok in H as (kb & HKB & H).
  pose proof (agree_kek_trip X (r_core r) (r_core rr) k lo target cv ks p p' pr (alg z) kb LE LA HNp HSu HDk HDs HSP HKB) as HKB'.
  assert (HT : exists zt kd, target = alg zt /\ alg_kind target = Some kd).
  { unfold agree_kek in HKB. do 3 (apply bind_ok in HKB as (? & _ & HKB)). apply bind_ok in HKB as (kx & HKX & _).
    unfold get_kdf_context in HKX. do 6 (apply bind_ok in HKX as (? & _ & HKX)). apply bind_ok in HKX as (len & HLn & _).
    eapply key_length_alg. exact HLn. }
  destruct HT as (zt & kd & -> & HKd). pose proof (agreed_init zt kd kb kc HKd H) as EK.
  split; [exists zt, kd, kb; auto|].
  destruct rr as [idr rcr c' ctxr subsr]. unfold equip_rcpt. cbn [r_with r_core] in *. set (c2 := with_local (with_key c' (Some k)) lo) in *.
  unfold agree_compute_cek. change (get_attr c2 Algorithm) with (get_attr c' Algorithm). rewrite (alg_trip (r_core r) c' z LA HG). cbn [bind].
  rewrite F1. cbn [bind negb]. rewrite F2. cbn [bind].
  assert (HPK : (if negb (existsb (Z.eqb z) es_hkdf) then get_attr c2 StaticKey else get_attr c2 EphemeralKey) = Ok (kval p')).
  { change (get_attr c2 EphemeralKey) with (get_attr c' EphemeralKey). change (get_attr c2 StaticKey) with (get_attr c' StaticKey).
    rewrite F3 in HGP. destruct (existsb (Z.eqb z) es_hkdf); exact HGP. }
  rewrite HPK. cbn [bind]. replace (is_none (kval p')) with false by (destruct p'; reflexivity). rewrite peer_kval. cbn [bind].
  assert (C1 : k_cls p' = KEC2) by (destruct HSP as [E _]; rewrite E; destruct HDs as (? & ? & ? & _ & E2 & _); exact E2).
  assert (C2 : k_cls k = KEC2) by (destruct HDk as (? & ? & ? & E2 & _); exact E2).
  rewrite (derive_verify p' z C1); [|unfold alg_ok; rewrite (same_param _ _ _ HSP); exact PA|unfold ops_ok; rewrite (same_param _ _ _ HSP); exact PO].
  change (ckey c2) with (Some k). cbn [bind]. rewrite (derive_verify k z C2 KA KO). cbn [bind]. rewrite HKB'. cbn [bind]. exact H.
Qed.

Lemma agree_class : forall r, r_class r = RAgree -> has_class RDirect [r] = false /\ has_class RAgree [r] = true.
Proof. intros r H. unfold has_class. cbn [existsb]. rewrite H. auto. Qed.

Lemma agreed_shares : forall c b z op, get_attr c Algorithm = Ok (alg z) -> ckey c = Some (agreed_key b (alg z)) -> shares c op (agreed_key b (alg z)).
Proof.
  intros c b z op HG HK. exists z, (agreed_key b (alg z)), b. split; [exact HG|]. split; [exact HK|]. do 4 (split; [reflexivity|]).
  split; [right; right; exists (Cls FAlg z); split; reflexivity|]. left. reflexivity.
Qed.

Theorem enc_agree_trip : forall n m r n' m2 b k lo e, law_gcm X -> law_ccm X -> law_wrap_some X -> law_oaep_some X -> law_ecdh X ->
  headers_ok X (e_core m) -> e_rcpts m = [r] -> headers_ok X (r_core r) -> r_subs r = [] -> agree_holder X r k lo ->
  e = None \/ e = Some 96%N -> encm_encode X n m true true = ((n', m2), Ok b) ->
  exists m' r' pl, decode X e true (VBytes b) = Ok (MEnc m') /\ arrived (e_core m) (e_core m') /\
    e_rcpts m' = [r'] /\ r_class r' = RAgree /\ arrived (r_core r) (r_core r') /\ payload (e_core m) = Some pl /\
    snd (encm_decrypt X (equip_msg m' (aad (e_core m)) 0 (equip_rcpt r' k lo)) (equip_rcpt r' k lo)) = Ok pl.
Proof.
  intros n m r n' m2 b k lo e LG LC LW LO LE HO ERs HOr HSu HH He H.
  assert (HC : r_class r = RAgree) by (destruct HH as (? & ? & ? & ? & ? & ? & HC & _); exact HC).
  assert (HSi : simple r) by (destruct HH as (z & ? & ? & ? & ? & ? & _ & HZ & HG & _); split; [exact HSu|exists z; rewrite HC; auto]).
  assert (HKn : ckey (r_core r) <> None) by (destruct HH as (z & ? & ? & ? & ? & ? & _ & _ & _ & _ & _ & E & _); congruence).
  unfold encm_encode in H.
  destruct (phdr_encoded (e_core m)) as [p|er] eqn:EP; [|discriminate].
  destruct (encm_encrypt X n m) as [[n1 m1] x] eqn:EE. destruct x as [ct|er]; cbn [bind] in H; [|discriminate].
  unfold encm_encrypt in EE. rewrite ERs in EE. destruct (bind (get_attr (e_core m) Algorithm) _) as [a|er] eqn:EA; [|discriminate].
  apply bind_ok in EA as (a' & HA & EA). apply bind_ok in EA as ([] & HV & EA). injection EA as ->.
  destruct (agree_class r HC) as [A1 A2]. rewrite A1, A2 in EE. unfold compute_cek in EE. rewrite HC in EE.
  destruct (agree_compute_cek X (r_core r) a false) as [kc|er] eqn:EC; cbn [bind] in EE; [|discriminate].
  apply pair_equal_spec in EE as [EE1 EE2]. injection EE1 as <- <-. cbn [e_core e_rcpts] in H.
  change (get_attr (with_key (e_core m) (Some kc)) Algorithm) with (get_attr (e_core m) Algorithm) in H. rewrite HA in H.
  destruct (rcpts_encode X n [r]) as [[n3 rs2] [vs|er]] eqn:ER; [|discriminate]. apply pair_equal_spec in H as [_ H].
  destruct (enc_decodes X (e_core m) p (Some ct) n [r] n3 rs2 vs b e LW LO HO (Forall_cons _ (conj HOr HSi) (Forall_nil _)) EP ER He H)
    as (c' & rrs & HDe & HAr & HPL & HLa).
  destruct (all_land_nth X _ _ _ 0 r HLa eq_refl) as (n0 & r2 & rr & _ & HIr & HLr).
  destruct (all_land_classes X _ _ _ HLa) as [HCl HLen].
  destruct rrs as [|rr' [|]]; try discriminate. injection HIr as ->.
  destruct (agree_trip n0 r r2 rr k lo a kc LE HH HLr EC) as ((z & kd & b0 & -> & HKd & ->) & HDc).
  pose proof (agreed_shares (with_key (e_core m) (Some (agreed_key b0 (alg z)))) b0 z (Cls FOps 4) HA eq_refl) as HSh.
  assert (HA' : arrived (with_key (e_core m) (Some (agreed_key b0 (alg z)))) c') by exact HAr.
  destruct (enc_trip X "Encrypt" _ c' _ ct LG LC HA' HPL HSh EE2) as (pl & HPp & HDd).
  exists (EncMsg c' [rr]), rr, pl. split; [exact HDe|]. split; [exact HAr|]. split; [reflexivity|].
  pose proof HLr as (_ & _ & L1 & _ & L4 & _ & _ & _ & w & _ & LM). rewrite HC in L1, LM. split; [exact L1|].
  destruct LM as [_ LM]. rewrite (LM HKn) in L4. split; [exact L4|]. split; [exact HPp|].
  destruct (equip_facts rr k lo) as [Q1 Q2]. set (rq := equip_rcpt rr k lo) in *. unfold equip_msg. cbn [e_core e_rcpts firstn skipn app].
  unfold encm_decrypt. cbn [e_core e_rcpts]. change (get_attr (with_aad c' (aad (e_core m))) Algorithm) with (get_attr c' Algorithm).
  rewrite (alg_trip (e_core m) c' z HAr HA). pose proof (replaced_has [rr] 0 rq) as HHas. cbn [firstn skipn app] in HHas. rewrite HHas. cbn [negb].
  assert (HM : map r_class [rq] = map r_class [r]) by (cbn [map]; congruence).
  rewrite (verify_map _ _ HM), HV, !(has_class_map _ _ _ HM), A1, A2. cbn [orb]. unfold compute_cek. rewrite Q1, L1. rewrite HDc. cbn [bind snd].
  exact HDd.
Qed.

End Trip.
