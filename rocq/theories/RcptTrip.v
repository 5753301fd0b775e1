(** Round trip of messages with recipients. *)
From Coq Require Import NArith ZArith Bool String Lia.
From Coq Require Import Init.Byte List.
From Verif Require Import Bytes BytesProofs Value ValueProofs Cbor CborProofs SpecData DataProofs Registry
  RegistryProofs Crypto SpecCrypto Keys Algorithms Headers Messages Recipients SpecRegistry SpecKeys SpecHdr HdrProofs HdrProofs2 MiscProofs
  SpecTrip KeyTrip KeyTrip2 SpecAlg KeyProofs KeyProofs2 AlgProofs SpecMsg HdrTrip MsgTrip MsgTrip2 SpecRcpt RcptProofs RcptProofs2 SpecRcptTrip.
Import ListNotations.
Local Open Scope result_scope.

(** ** Derived symmetric keys *)

Definition sym_key (b : bytes) (a : pyval) (ops : list pyval) : key :=
  Key KSym [(VClass KpKty, KtySymmetric); (VClass KpAlg, a); (VClass KpKeyOps, VList ops); (VClass SymKpK, VBytes b)] [].

Definition used_ops : list (list pyval) :=
  [[EncryptOp]; [DecryptOp]; [WrapOp; EncryptOp]; [DecryptOp; UnwrapOp]; [UnwrapOp; DecryptOp]; [DeriveKeyOp]].

Lemma sym_common : forall z ops, existsb (fun e => Z.eqb (fst e) z) alg_defs = true -> In ops used_ops ->
  common_init KSym (VDict [(VClass KpAlg, alg z); (VClass KpKeyOps, VList ops)]) true =
    Ok (Key KSym [(VClass KpKty, KtySymmetric); (VClass KpAlg, alg z); (VClass KpKeyOps, VList ops)] []).
Proof.
  assert (H : forallb (fun e => forallb (fun ops =>
      match common_init KSym (VDict [(VClass KpAlg, alg (fst e)); (VClass KpKeyOps, VList ops)]) true with
      | Ok (Key KSym s []) => veqb (VDict s) (VDict [(VClass KpKty, KtySymmetric); (VClass KpAlg, alg (fst e)); (VClass KpKeyOps, VList ops)])
      | _ => false end) used_ops) alg_defs = true) by (vm_compute; reflexivity).
  intros z ops HZ HO. apply existsb_exists in HZ as (e & HI & E). apply Z.eqb_eq in E. subst z.
  rewrite forallb_forall in H. specialize (H _ HI). rewrite forallb_forall in H. specialize (H _ HO). cbv beta in H.
  destruct (common_init _ _ _) as [[kc s ex]|]; [|discriminate]. destruct kc; try discriminate. destruct ex; [|discriminate].
  apply veqb_eq in H. injection H as ->. reflexivity.
Qed.

Lemma kind_def : forall z k, alg_kind (alg z) = Some k -> existsb (fun e => Z.eqb (fst e) z) alg_defs = true.
Proof.
  intros z k H. unfold alg_kind, alg in H. destruct (find _ alg_defs) as [e|] eqn:EF; [|discriminate].
  apply find_some in EF as [HI E]. apply existsb_exists. eauto.
Qed.

Lemma sym_with_is : forall v z ops kd k, sym_with v (alg z) ops = Ok k -> alg_kind (alg z) = Some kd -> In ops used_ops ->
  exists b, v = VBytes b /\ k = sym_key b (alg z) ops.
Proof.
  intros v z ops kd k H HK HO. unfold sym_with, sym_init in H. rewrite (sym_common z ops (kind_def _ _ HK) HO) in H. cbn [bind] in H.
  destruct (veqb v (VBytes [])); [discriminate|]. unfold set_k in H. destruct v; try discriminate.
  destruct (existsb _ _); [|discriminate]. injection H as <-. eexists. split; [reflexivity|reflexivity].
Qed.

Lemma sym_with_again : forall b z z' ops ops' kd kd' k, sym_with (VBytes b) (alg z) ops = Ok k ->
  alg_kind (alg z) = Some kd -> In ops used_ops -> alg_kind (alg z') = Some kd' -> In ops' used_ops ->
  sym_with (VBytes b) (alg z') ops' = Ok (sym_key b (alg z') ops').
Proof.
  intros b z z' ops ops' kd kd' k H HK HO HK' HO'. unfold sym_with, sym_init in *.
  rewrite (sym_common z ops (kind_def _ _ HK) HO) in H. rewrite (sym_common z' ops' (kind_def _ _ HK') HO'). cbn [bind] in *.
  destruct (veqb (VBytes b) (VBytes [])); [discriminate|]. unfold set_k in *. destruct (existsb _ _); [|discriminate]. reflexivity.
Qed.

Lemma sym_key_secret : forall b a ops, secret (sym_key b a ops) b.
Proof. intros. reflexivity. Qed.

Lemma sym_key_verify : forall b z ops o req, In (VClass o) ops -> In o req ->
  key_verify (sym_key b (alg z) ops) KSym (alg z) (map VClass req) = Ok tt.
Proof.
  intros b z ops o req H1 H2. apply (key_verify_ok (sym_key b (alg z) ops) (Cls FAlg z) req).
  - right. right. exists (Cls FAlg z). split; reflexivity.
  - right. right. exists ops, o. split; [reflexivity|]. auto.
Qed.

Lemma sym_key_unwrap : forall b z ops, In DecryptOp ops -> key_verify (sym_key b (alg z) ops) KSym (alg z) [UnwrapOp; DecryptOp] = Ok tt.
Proof. intros b z ops H. apply (sym_key_verify b z ops (Cls FOps 4) [Cls FOps 6; Cls FOps 4] H). cbn. auto. Qed.

(** ** Keys in headers *)

Lemma from_dict_kty : forall X v k, from_dict X v = Ok k -> param k KpKty = Some (kty_of (k_cls k)).
Proof.
  intros X v k H.
  assert (HF : exists c, fresh c k).
  { assert (HD : forall t m, dispatch_kty X t m = Ok k -> exists c, fresh c k).
    { clear. intros t m H. unfold dispatch_kty in H. destruct (negb (hashable t)); [discriminate|].
      destruct (key_type_lookup key_types t) as [[]|]; [| | | |discriminate].
      - unfold sym_from_dict in H. do 2 (apply bind_ok in H as (? & _ & H)). apply sym_init_fresh in H as [H _]. eauto.
      - unfold okp_from_dict in H. do 4 (apply bind_ok in H as (? & _ & H)). apply okp_init_fresh in H as [H _]. eauto.
      - unfold ec2_from_dict in H. do 5 (apply bind_ok in H as (? & _ & H)). apply ec2_init_fresh in H as [H _]. eauto.
      - unfold rsa_from_dict in H. do 13 (apply bind_ok in H as (? & _ & H)). apply rsa_init_fresh in H. eauto. }
    unfold from_dict in H. destruct v; try discriminate.
    all: apply bind_ok in H as (o1 & _ & H); destruct o1; [eauto|];
         apply bind_ok in H as (o2 & _ & H); destruct o2; [eauto|];
         apply bind_ok in H as (o3 & _ & H); destruct o3; [eauto|discriminate]. }
  destruct HF as [c HF]. destruct HF. congruence.
Qed.

(** Received ephemeral and static keys are key objects. *)
Definition key_headers (h : dict) : Prop :=
  forall z v, In z [-1; -2]%Z -> dget h (hdr z) = Some v -> exists k, v = kval k /\ param k KpKty = Some (kty_of (k_cls k)).

Lemma parse_key_headers : forall X allow d acc h, parse_items X allow d acc = Ok h -> key_headers acc -> key_headers h.
Proof.
  intros X allow d. induction d as [|[a v] d IH]; intros acc h H HA; [injection H as <-; exact HA|].
  cbn [parse_items] in H. apply bind_ok in H as (a' & _ & H). apply bind_ok in H as (w & HW & H).
  apply (IH _ _ H). intros z x HZ HX. destruct (keyeq (hdr z) a') eqn:E.
  - rewrite dget_dset_same in HX by exact E. injection HX as <-. apply keyeq_class in E. subst a'.
    cbn [In] in HZ. destruct HZ as [<-|[<-|[]]]; cbn [parse_value hdr] in HW;
      apply bind_ok in HW as (k & HK & HW); injection HW as <-; exists k; (split; [reflexivity|]); eapply from_dict_kty; exact HK.
  - rewrite dget_dset_other in HX by exact E. eauto.
Qed.

Section Trip.
Variable X : crypto.

Lemma core_keys : forall allow obj c rest, core_from_obj X allow obj = Ok (c, rest) -> key_headers (phdr c) /\ key_headers (uhdr c).
Proof.
  intros allow obj c rest H. apply core_from_obj_inv in H as (p & u & pl & c0 & -> & HI & HPL & ->).
  apply core_init_inv in HI as (pd & ud & _ & _ & HP & HU & _). cbn [phdr uhdr] in *.
  split; [eapply parse_key_headers; [exact HP|]|eapply parse_key_headers; [exact HU|]]; intros z v _ HV; discriminate.
Qed.

(** ** Decoding a recipient *)

Lemma create_class : forall ctx id p u rest c l z rc, core_from_obj X true (VBytes p :: VDict u :: rest) = Ok (c, l) ->
  get_attr c Algorithm = Ok (alg z) -> rcpt_class_of (alg z) = Ok rc ->
  create_recipient X true ctx id (VList (VBytes p :: VDict u :: rest)) = rcpt_from_obj X true ctx id rc (VList (VBytes p :: VDict u :: rest)).
Proof.
  intros ctx id p u rest c l z rc HC HG HR. unfold create_recipient. cbn [py_index nth_error bind].
  apply core_from_obj_inv in HC as (p' & u' & pl & c0 & E & HI & HPL & EQ). injection E as <- <- ->.
  apply core_init_inv in HI as (pd & ud & HPM & HUM & HP & HU & _). cbn [a_phdr a_phdr_encoded a_uhdr a_allow] in *.
  assert (EP : phdr c = phdr c0) by (rewrite EQ; reflexivity). assert (EU : uhdr c = uhdr c0) by (rewrite EQ; reflexivity).
  assert (HB : (if veqb (VBytes p) (VBytes []) then Ok VNone
            else bind (loads (VBytes p)) (fun h => bind (parse_header X true h) (fun d => Ok (dget_or d Algorithm VNone)))) =
          Ok (dget_or (phdr c0) Algorithm VNone)).
  { destruct HPM as [[A B]|[(A & b & B & C)|(A & B & ->)]]; [discriminate| |].
    - injection B as <-. destruct (veqb (VBytes p) (VBytes [])) eqn:E.
      + apply veqb_eq in E. injection E as ->. elim (loads_nil _ C).
      + change (loads (VBytes p)) with (loads_bytes p). rewrite C. cbn [bind parse_header]. rewrite HP. reflexivity.
    - cbn [parse_items] in HP. injection HP as <-. destruct B as [B|B]; [discriminate|]. injection B as ->. reflexivity. }
  rewrite HB. cbn [bind].
  assert (HUD : ud = u) by (destruct HUM as [E|[E1 E2]]; congruence). subst ud. cbn [parse_header]. rewrite HU. cbn [bind]. cbv zeta.
  unfold get_attr, get_attr_default in HG. rewrite EP, EU in HG. set (pa := dget_or (phdr c0) Algorithm VNone) in *.
  set (ua := dget_or (uhdr c0) Algorithm VNone) in *.
  assert (HA : (if is_none pa then ua else pa) = alg z).
  { destruct (is_none pa); cbn [negb andb] in HG; [congruence|]. destruct (is_none ua); cbn [negb] in HG; congruence. }
  rewrite HA. cbn [alg is_none]. fold (alg z). rewrite HR. reflexivity.
Qed.

Lemma class_of_alg : forall z rc, In z (class_algs rc) -> rcpt_class_of (alg z) = Ok rc.
Proof. intros z rc H. destruct rc; cbn [class_algs In] in H; repeat (destruct H as [<-|H]; [reflexivity|]); destruct H. Qed.

(** What the encoding of a recipient must satisfy to be accepted. *)
Definition acceptable (rc : rclass) (z : Z) (c : core) (w : bytes) : Prop :=
  match rc with
  | RDirect => w = [] /\ (z = (-6)%Z -> phdr c = [])
  | RKeyWrap => w <> [] /\ phdr c = []
  | RAgree => In z es_hkdf -> exists e, get_attr c EphemeralKey = Ok e /\ is_none e = false
  | RAgreeKW => w <> []
  end.

Lemma recipient_trip : forall c p h w rc ctx id z, headers_ok X c -> phdr_encoded c = Ok p ->
  get_attr c Algorithm = Ok (alg z) -> In z (class_algs rc) -> acceptable rc z c w ->
  exists rr, create_recipient X true ctx id (VList [VBytes p; VDict (W h (uhdr c)); VBytes w]) = Ok rr /\
    r_id rr = id /\ r_class rr = rc /\ r_subs rr = [] /\ arrived c (r_core rr) /\ payload (r_core rr) = Some w /\
    local (r_core rr) = [] /\ key_headers (phdr (r_core rr)) /\ key_headers (uhdr (r_core rr)).
Proof.
  intros c p h w rc ctx id z HO HP HG HZ HA.
  destruct (core_trip X c p h (Some w) (VBytes w) [] HO HP eq_refl) as (c' & HC & HAr & HPL & _ & _ & HL).
  pose proof (alg_trip c c' z HAr HG) as HG'. pose proof (core_keys _ _ _ _ HC) as [HK1 HK2].
  exists (Rcpt id rc c' ctx []). split; [|cbn [r_id r_class r_subs r_core]; repeat (split; [first [reflexivity|assumption]|]); assumption].
  rewrite (create_class ctx id p _ _ c' [] z rc HC HG' (class_of_alg z rc HZ)). unfold rcpt_from_obj. rewrite HC. cbn [bind]. rewrite HPL.
  assert (HN : phdr c = [] -> phdr c' = []) by (destruct HAr as (HS & _); apply (proj1 (same_headers_nil _ _ HS))).
  destruct rc; cbn [acceptable] in HA.
  - destruct HA as [-> HA]. cbn [negb]. rewrite HG'. cbn [bind]. destruct (veqb (alg z) (algc (-6))) eqn:E; [|reflexivity].
    apply veqb_eq in E. injection E as ->. rewrite (HN (HA eq_refl)). reflexivity.
  - destruct HA as [HW HA]. rewrite HG'. cbn [bind]. rewrite (HN HA). cbn [length Nat.eqb negb].
    destruct w as [|b0 w0]; [congruence|]. cbn [class_algs In] in HZ. repeat (destruct HZ as [<-|HZ]; [reflexivity|]). destruct HZ.
  - rewrite HG'. cbn [bind].
    assert (HE : alg_in (alg z) es_hkdf = Ok (existsb (Z.eqb z) es_hkdf)).
    { cbn [class_algs In] in HZ. repeat (destruct HZ as [<-|HZ]; [reflexivity|]). destruct HZ. }
    rewrite HE. cbn [bind]. destruct (existsb (Z.eqb z) es_hkdf) eqn:EE; [|reflexivity].
    destruct HA as (e & HE1 & HE2). { apply existsb_exists in EE as (z' & HI & EZ). apply Z.eqb_eq in EZ. congruence. }
    destruct HAr as (HS1 & HS2 & _). destruct (get_attr_same c c' EphemeralKey _ HS1 HS2 HE1) as (e' & bb & HE' & HS).
    rewrite HE'. cbn [bind]. rewrite (same_value_none _ _ _ HS), HE2. reflexivity.
  - destruct w; [congruence|]. reflexivity.
Qed.

(** ** Unwrapping *)

Lemma kw_wrap_trip : forall n n0 z kek kek' b d w, alg_kind (alg z) = Some (AKw n) -> law_wrap X -> law_wrap_some X ->
  secret kek b -> secret kek' b -> alg_key_wrap X n0 (alg z) kek (vopt d) = Ok w ->
  exists k, d = Some k /\ alg_key_unwrap X (alg z) kek' (VBytes w) = Ok k /\ w <> [].
Proof.
  intros n n0 z kek kek' b d w HK LW LS H1 H2 H. unfold alg_key_wrap in H. unfold alg_key_unwrap. rewrite HK in *. unfold kw_key in *.
  unfold secret in *. rewrite H1 in H. rewrite H2. cbn [bind py_len as_bytes] in *. destruct (Nat.eqb n (length b)); [|discriminate].
  cbn [bind] in *. destruct d as [k|]; [|discriminate]. cbn [vopt as_bytes bind] in H. exists k. split; [reflexivity|].
  split; [apply LW; exact H|eapply LS; exact H].
Qed.

Lemma oaep_wrap_trip : forall h n0 z ks kr d w, alg_kind (alg z) = Some (AOaep h) -> law_oaep X -> law_oaep_some X -> rsa_pair ks kr ->
  alg_key_wrap X n0 (alg z) ks (vopt d) = Ok w ->
  exists k, d = Some k /\ alg_key_unwrap X (alg z) kr (VBytes w) = Ok k /\ w <> [].
Proof.
  intros h n0 z ks kr d w HK LO LS (q & HP & HQ & HV) H.
  unfold alg_key_wrap in H. unfold alg_key_unwrap. rewrite HK in *. rewrite (rsa_public_read ks _ HP) in H. rewrite (rsa_private_read kr q HQ).
  cbn [bind as_bytes] in *. destruct d as [k|]; [|discriminate]. cbn [vopt as_bytes bind] in H. exists k. split; [reflexivity|].
  split; [|eapply LS; exact H]. eapply LO; [exact HV|exact H].
Qed.

(** AES key wrap and RSA-OAEP recipients. *)
Lemma kw_phdr : forall n c subs w, kw_encrypt X n c subs = Ok w -> phdr c = [].
Proof.
  intros n c subs w H. unfold kw_encrypt in H. apply bind_ok in H as (a & _ & H). destruct (phdr c); [reflexivity|discriminate].
Qed.

Lemma kw_some : forall n c subs w z, law_wrap_some X -> law_oaep_some X -> get_attr c Algorithm = Ok (alg z) -> kw_encrypt X n c subs = Ok w -> w <> [].
Proof.
  intros n c subs w z LW LO HG H. unfold kw_encrypt in H. rewrite HG in H. cbn [bind] in H. destruct (negb _); [discriminate|].
  cbn [alg is_none] in H. fold (alg z) in H. apply bind_ok in H as (kw & HKW & H).
  assert (HX : forall k, alg_key_wrap X n (alg z) k (vopt (payload c)) = Ok w -> w <> []).
  { intros k HW. unfold alg_key_wrap in HW. destruct (alg_kind (alg z)) as [[]|]; try discriminate;
      apply bind_ok in HW as (? & _ & HW); apply bind_ok in HW as (? & _ & HW); eauto. }
  destruct kw.
  - apply bind_ok in H as (kb & _ & H). apply bind_ok in H as (kek & _ & H). apply bind_ok in H as (u & _ & H). eauto.
  - apply bind_ok in H as (oa & _ & H). destruct oa; [|discriminate]. destruct (ckey c); [|discriminate].
    apply bind_ok in H as (u & _ & H). eauto.
Qed.

Lemma kw_trip : forall n c w c' ctx id k lo z, law_wrap X -> law_wrap_some X -> In z [-3; -4; -5]%Z ->
  get_attr c Algorithm = Ok (alg z) -> (exists ks b, ckey c = Some ks /\ secret ks b /\ secret k b) ->
  kw_encrypt X n c [] = Ok w -> arrived c c' -> payload c' = Some w ->
  exists d, payload c = Some d /\ rcpt_decrypt X (equip_rcpt (Rcpt id RKeyWrap c' ctx []) k lo) = Ok d.
Proof.
  intros n c w c' ctx id k lo z LW LS HZ HG (ks & b & HK & HS & HS') H HA HP.
  unfold kw_encrypt in H. rewrite HG in H. cbn [bind] in H. destruct (negb _); [discriminate|].
  cbn [alg is_none] in H. fold (alg z) in H.
  assert (HI : alg_in (alg z) aes_kw = Ok true /\ exists len, alg_kind (alg z) = Some (AKw len)).
  { cbn [In] in HZ. repeat (destruct HZ as [<-|HZ]; [split; [reflexivity|eexists; reflexivity]|]). destruct HZ. }
  destruct HI as [HI [len HL]]. rewrite HI in H. cbn [bind] in H. unfold kw_kek_encrypt in H. rewrite HK in H.
  unfold secret in HS, HS'. rewrite HS in H. cbn [bind] in H. apply bind_ok in H as (kek & HKEK & H). apply bind_ok in H as (u & _ & H).
  pose proof (sym_with_again b z z [WrapOp; EncryptOp] [DecryptOp; UnwrapOp] _ _ _ HKEK HL ltac:(cbn; auto) HL ltac:(cbn; auto)) as HR.
  apply sym_with_is with (kd := AKw len) in HKEK as (b' & E & ->); [|exact HL|cbn; auto]. injection E as <-.
  destruct (kw_wrap_trip len n z _ (sym_key b (alg z) [DecryptOp; UnwrapOp]) b (payload c) w HL LW LS (sym_key_secret _ _ _) (sym_key_secret _ _ _) H)
    as (d & HD & HU & _).
  exists d. split; [exact HD|]. unfold equip_rcpt. cbn [r_with r_core rcpt_decrypt].
  change (get_attr (with_local (with_key c' (Some k)) lo) Algorithm) with (get_attr c' Algorithm).
  rewrite (alg_trip c c' z HA HG). cbn [bind]. rewrite HI. cbn [bind with_local with_key ckey]. rewrite HS'. cbn [bind]. rewrite HR. cbn [bind].
  rewrite sym_key_unwrap by (cbn; auto).
  rewrite <- HU. change (VBytes w) with (vopt (Some w)). rewrite <- HP. reflexivity.
Qed.

Lemma oaep_trip : forall n c w c' ctx id k lo z, law_oaep X -> law_oaep_some X -> In z [-40; -41; -42]%Z ->
  get_attr c Algorithm = Ok (alg z) -> (exists ks, ckey c = Some ks /\ rsa_pair ks k) ->
  alg_ok k (Cls FAlg z) -> ops_ok k [Cls FOps 6; Cls FOps 4] ->
  kw_encrypt X n c [] = Ok w -> arrived c c' -> payload c' = Some w ->
  exists d, payload c = Some d /\ rcpt_decrypt X (equip_rcpt (Rcpt id RKeyWrap c' ctx []) k lo) = Ok d.
Proof.
  intros n c w c' ctx id k lo z LO LS HZ HG (ks & HK & HR) HAO HOP H HA HP.
  unfold kw_encrypt in H. rewrite HG in H. cbn [bind] in H. destruct (negb _); [discriminate|].
  cbn [alg is_none] in H. fold (alg z) in H.
  assert (HI : alg_in (alg z) aes_kw = Ok false /\ alg_in (alg z) oaep = Ok true /\ exists h, alg_kind (alg z) = Some (AOaep h)).
  { cbn [In] in HZ. repeat (destruct HZ as [<-|HZ]; [split; [reflexivity|split; [reflexivity|eexists; reflexivity]]|]). destruct HZ. }
  destruct HI as (HI1 & HI2 & h & HL). rewrite HI1 in H. cbn [bind] in H. rewrite HI2, HK in H. cbn [bind] in H.
  apply bind_ok in H as (u & _ & H).
  destruct (oaep_wrap_trip h n z ks k (payload c) w HL LO LS HR H) as (d & HD & HU & _).
  exists d. split; [exact HD|]. unfold equip_rcpt. cbn [r_with r_core rcpt_decrypt].
  change (get_attr (with_local (with_key c' (Some k)) lo) Algorithm) with (get_attr c' Algorithm).
  rewrite (alg_trip c c' z HA HG). cbn [bind]. rewrite HI1. cbn [bind]. rewrite HI2. cbn [bind with_local with_key ckey].
  pose proof (key_verify_ok k _ _ HAO HOP) as HV. destruct HR as (? & _ & ((HC & _) & _) & _). rewrite HC in HV. cbn [map] in HV.
  unfold UnwrapOp, DecryptOp, alg. rewrite HV.
  rewrite <- HU. change (VBytes w) with (vopt (Some w)). rewrite <- HP. reflexivity.
Qed.
End Trip.
