(** Which exceptions checking and decrypting can raise (C92). *)
From Coq Require Import NArith ZArith Bool String Lia.
From Coq Require Import Init.Byte List.
From Verif Require Import Bytes Value ValueProofs Cbor CborProofs Registry Crypto Keys Algorithms Headers Messages Recipients
  SpecKeys SpecHdr SpecStruct SpecAlg SpecAccept SpecCheck SpecMsg KeyProofs KeyProofs2 KeyProofs3 KeyProofs4 HdrProofs HdrProofs2 StructProofs AcceptProofs.
Import ListNotations.
Local Open Scope result_scope.

Lemma bind_err_inv : forall A B (r : result A) (f : A -> result B) x, bind r f = Err x -> r = Err x \/ exists a, r = Ok a /\ f a = Err x.
Proof. intros A B [a|e] f x H; cbn [bind] in H; [right; eauto|left; congruence]. Qed.

(** ** Serialising the structures *)

Definition short_ctx (ctx : string) : Prop := wfc (CText (bs ctx)) = true.

Lemma max_len_pow : max_len = (2 ^ 63)%N.
Proof. vm_compute. reflexivity. Qed.
Lemma small_len : forall n, (n <= 6)%nat -> N.ltb (N.of_nat n) max_len = true.
Proof. intros n H. apply N.ltb_lt. apply N.le_lt_trans with 6%N; [lia|vm_compute; reflexivity]. Qed.

Lemma long_item : forall l, forallb wfc (map CBytes l) = false -> oversized l.
Proof.
  induction l as [|b l IH]; intros E; [discriminate|]. cbn [map forallb] in E. apply andb_false_iff in E as [E|E].
  - rewrite wfc_bytes in E. apply N.ltb_ge in E. exists b. split; [left; reflexivity|]. rewrite max_len_pow in E. unfold blen in E. exact E.
  - destruct (IH E) as (b' & HI & HB). exists b'. split; [right; exact HI|exact HB].
Qed.

Lemma long_ctx : forall ctx l, short_ctx ctx -> (length l <= 5)%nat -> wfc (ctx_item ctx l) = false -> oversized l.
Proof.
  intros ctx l HC HL E. unfold ctx_item in E. rewrite wfc_arr in E. rewrite small_len in E; [|cbn [length]; rewrite map_length; lia].
  rewrite andb_true_l in E. apply long_item. unfold short_ctx in HC.
  change (forallb wfc (CText (bs ctx) :: map CBytes l)) with (wfc (CText (bs ctx)) && forallb wfc (map CBytes l)) in E.
  rewrite HC, andb_true_l in E. exact E.
Qed.

Lemma dumps_ctx_eq : forall ctx l, dumps_plain (VList (VStr (bs ctx) :: map VBytes l)) =
  if wfc (ctx_item ctx l) then Ok (enc (ctx_item ctx l)) else Err OverflowError.
Proof.
  intros ctx l. unfold dumps_plain, dumps. cbn [lower mapM bind]. rewrite lower_bytes_list. cbn [bind]. reflexivity.
Qed.

Lemma structure_err : forall ctx l x, short_ctx ctx -> (length l <= 5)%nat ->
  dumps_plain (VList (VStr (bs ctx) :: map VBytes l)) = Err x -> x = OverflowError /\ oversized l.
Proof.
  intros ctx l x HC HL H. rewrite dumps_ctx_eq in H. destruct (wfc (ctx_item ctx l)) eqn:E; [discriminate|].
  injection H as <-. split; [reflexivity|]. eapply long_ctx; eassumption.
Qed.

Lemma oversized_incl : forall l m, (forall b, In b l -> b = [] \/ In b m) -> oversized l -> oversized m.
Proof.
  intros l m H (b & HI & HB). destruct (H b HI) as [->|HM]; [cbn [length N.of_nat] in HB; lia|]. exists b. auto.
Qed.

(** ** Keys *)

Lemma key_verify_err : forall k c a o x, typed k -> key_verify k c a [VClass o] = Err x ->
  is_cose_exception x = true \/ (x = AttributeError /\ forall cl, a <> VClass cl).
Proof.
  intros k c a o x (HA & HO & _) H. unfold key_verify in H. destruct (negb _); [injection H as <-; auto|].
  apply bind_err_inv in H as [H|(? & _ & H)].
  - cbv zeta in H. unfold param, dget_or in *. destruct (dget (k_store k) (VClass KpAlg)) as [v|]; [|discriminate].
    destruct (HA v eq_refl) as [c0 ->]. cbn [is_none identifier_of] in H.
    destruct a; try (right; split; [cbn [identifier_of] in H; congruence|intros ? ?; discriminate]).
    cbn [identifier_of] in H. destruct (Z.eqb _ _); [discriminate|]. injection H as <-. auto.
  - cbv zeta in H. unfold param, dget_or in *. destruct (dget (k_store k) (VClass KpKeyOps)) as [v|].
    + destruct (HO v eq_refl) as [l ->]. cbn [py_len bind] in H. destruct (Nat.eqb _ _); [discriminate|].
      change [VClass o] with (map VClass [o]) in H. rewrite any_in_list in H. cbn [bind] in H. destruct (existsb _ _); [discriminate|].
      injection H as <-. auto.
    + cbn [py_len bind] in H. discriminate.
Qed.

Lemma received_protected : forall X allow obj c rest, core_from_obj X allow obj = Ok (c, rest) ->
  (phdr_raw c = None -> phdr c = []) .
Proof.
  intros X allow obj c rest H HR. apply core_from_obj_inv in H as (p & u & pl & c0 & -> & HI & _ & EC). rewrite EC in HR |- *. cbn [phdr phdr_raw with_payload] in *. clear EC.
  apply core_init_inv in HI as (pd & ud & HM & _ & HP & _ & HW & _). cbn [a_phdr a_phdr_encoded] in *. rewrite HR in HW.
  destruct HM as [[HM _]|[(_ & b & HM & _)|(_ & _ & ->)]]; [discriminate|subst p; discriminate|]. injection HP as <-. reflexivity.
Qed.

Definition encodable (c : core) : Prop := phdr_raw c = None -> phdr c = [].

Lemma encodable_base : forall c, encodable c -> exists p, base_protected c = Ok p /\ (p = [] \/ phdr_raw c = Some p).
Proof.
  intros c H. unfold base_protected, phdr_encoded. destruct (phdr c) eqn:E; [eauto|].
  destruct (phdr_raw c) as [b|] eqn:ER; [eauto|]. rewrite H in E by exact ER. discriminate.
Qed.
Lemma encodable_phdr : forall c, encodable c -> exists p, phdr_encoded c = Ok p /\ (p = [] \/ phdr_raw c = Some p).
Proof.
  intros c H. unfold phdr_encoded. destruct (phdr_raw c) as [b|] eqn:E; [eauto|]. rewrite H by exact E. eauto.
Qed.

Lemma get_attr_err : forall c a x, get_attr c a = Err x -> x = CoseException.
Proof. intros c a x H. unfold get_attr, get_attr_default in H. cbv zeta in H. destruct (_ && _); [congruence|]. destruct (negb _); discriminate. Qed.

(** ** Algorithms *)

Lemma declared : forall c a (P : Z -> Prop), get_attr c Algorithm = Ok a -> (forall z, a = alg z -> ~ P z) -> ~ declares c P.
Proof. intros c a P HA H (z & HZ & HP). rewrite HA in HZ. injection HZ as ->. exact (H z eq_refl HP). Qed.

Lemma not_class : forall c a (P : Z -> Prop), get_attr c Algorithm = Ok a -> (forall cl, a <> VClass cl) -> ~ declares c P.
Proof. intros c a P HA H. eapply declared; [exact HA|]. intros z ->. elim (H (Cls FAlg z)). reflexivity. Qed.

Ltac each H := cbn [map fst In rfc_hmacs rfc_aes_macs rfc_gcms rfc_ccms rsa_schemes] in H;
  repeat (destruct H as [H|H]; [subst; try discriminate|]); try (destruct H).

Lemma has_mac_err : forall a x, has_mac a = Err x -> x = AttributeError /\ forall z, a = alg z -> ~ mac_algorithm z.
Proof.
  intros a x H. split; [unfold has_mac in H; destruct (alg_kind a) as [[]|]; congruence|].
  intros z -> [HZ|HZ]; each HZ; vm_compute in H; discriminate.
Qed.
Lemma has_enc_err : forall a x, has_enc a = Err x -> x = AttributeError /\ forall z, a = alg z -> ~ enc_algorithm z.
Proof.
  intros a x H. split; [unfold has_enc in H; destruct (alg_kind a) as [[]|]; congruence|].
  intros z -> [HZ|HZ]; each HZ; vm_compute in H; discriminate.
Qed.
Lemma has_sign_err : forall t a x, has_sign a = Err x -> x = AttributeError /\ forall z, a = alg z -> ~ sig_algorithm t z.
Proof.
  intros t a x H. split; [unfold has_sign in H; destruct (alg_kind a) as [[]|]; congruence|].
  intros z -> HZ. destruct t; cbn [sig_algorithm] in HZ; [exact HZ|subst z; vm_compute in H; discriminate| |]; each HZ; vm_compute in H; discriminate.
Qed.

(** Which keys an algorithm is for. *)
Lemma kinds_of_keys : Forall (fun e => forall t, sig_algorithm t (fst e) ->
  match snd e with
  | ARsa _ _ => t = KRSA | AEcdsa _ _ => t = KEC2 | AEdDSA => t = KOKP | _ => False
  end) alg_defs.
Proof.
  unfold alg_defs. repeat (apply Forall_cons; [intros [] H; cbn [fst snd sig_algorithm] in *; try contradiction; try discriminate; try reflexivity; each H|]).
  apply Forall_nil.
Qed.

Section Check.
Variable X : crypto.

(** ** MACs *)

Lemma typed_secret : forall k, typed k -> k_cls k = KSym -> exists b, prop_get k PK = Ok (VBytes b) /\ In (length b) [16; 24; 32].
Proof.
  intros k (_ & _ & _ & _ & H) HC. rewrite HC in H. destruct H as (b & HB & HL). exists b. split; [|exact HL].
  unfold prop_get, param in *. rewrite HC, HB. reflexivity.
Qed.

Lemma compute_tag_ok : forall a k t u, typed k -> k_cls k = KSym -> has_mac a = Ok u -> exists b, alg_compute_tag X a k t = Ok b.
Proof.
  intros a k t u HT HC H. destruct (typed_secret k HT HC) as (b & HB & HL). unfold has_mac in H. unfold alg_compute_tag.
  destruct (alg_kind a) as [[]|]; try discriminate.
  - unfold attr_bytes. rewrite HB. cbn [bind as_bytes]. eauto.
  - unfold aes_key, attr_bytes. rewrite HB. cbn [bind as_bytes].
    assert (E : existsb (Nat.eqb (length b)) [16; 24; 32] = true).
    { cbn [In] in HL. cbn [existsb]. destruct HL as [<-|[<-|[<-|[]]]]; reflexivity. }
    rewrite E. cbn [bind]. eauto.
Qed.

Lemma key_verify_cls : forall k c a o u, key_verify k c a o = Ok u -> k_cls k = c.
Proof.
  intros k c a o u H. unfold key_verify in H. destruct (negb (kclass_eqb (k_cls k) c)) eqn:E; [discriminate|].
  apply kclass_eqb_eq. destruct (kclass_eqb _ _); [reflexivity|discriminate].
Qed.

Lemma parts_raw : forall c d b, phdr_raw c = Some b -> In b (parts c d).
Proof. intros c d b H. unfold parts. rewrite H. left. reflexivity. Qed.
Lemma parts_aad : forall c d, In (aad c) (parts c d).
Proof. intros c d. unfold parts. apply in_app_iff. right. left. reflexivity. Qed.
Lemma parts_payload : forall c d b, payload c = Some b -> In b (parts c d).
Proof. intros c d b H. unfold parts. rewrite !in_app_iff, H. right. right. left. left. reflexivity. Qed.
Lemma parts_detached : forall c b, In b (parts c (Some b)).
Proof. intros c b. unfold parts. rewrite !in_app_iff. right. right. right. left. reflexivity. Qed.

Lemma mac_verify_err : forall ctx c tag k x, short_ctx ctx -> encodable c -> ckey c = Some k -> typed k ->
  mac_verify X ctx c tag = Err x -> is_cose_exception x = true \/ mac_surprise c x.
Proof.
  intros ctx c tag k x HS HE HK HT H. unfold mac_verify in H. apply bind_err_inv in H as [H|(a & HA & H)]; [apply get_attr_err in H; subst x; auto|].
  rewrite HK in H. apply bind_err_inv in H as [H|(u & HV & H)].
  { apply key_verify_err in H as [H|[-> H]]; [auto| |exact HT]. right. left. split; [reflexivity|]. eapply not_class; eassumption. }
  apply bind_err_inv in H as [H|(u' & HM & H)].
  { apply has_mac_err in H as [-> H]. right. left. split; [reflexivity|]. eapply declared; eassumption. }
  apply bind_err_inv in H as [H|(t & _ & H)].
  - right. right. unfold mac_structure in H. destruct (encodable_base c HE) as (p & HP & HR). rewrite HP in H. cbn [bind] in H.
    destruct (payload c) as [pl|] eqn:EP; [|left; split; [congruence|reflexivity]]. right.
    apply (structure_err ctx [p; aad c; pl]) in H as [-> H]; [|exact HS|cbn; lia]. split; [reflexivity|].
    eapply oversized_incl; [|exact H]. intros b [<-|[<-|[<-|[]]]]; [|right; apply parts_aad|right; apply parts_payload; exact EP].
    destruct HR as [-> | HR]; [auto|right; apply parts_raw; exact HR].
  - apply key_verify_cls in HV. destruct (compute_tag_ok a k t _ HT HV HM) as (b & HB). unfold alg_verify_tag in H. rewrite HB in H. discriminate.
Qed.

(** ** Signatures *)

Lemma key_verification_err : forall c k a o x, ckey c = Some k -> typed k -> key_verification c a (VClass o) = Err x ->
  is_cose_exception x = true \/ (x = AttributeError /\ forall cl, a <> VClass cl).
Proof.
  intros c k a o x HK HT H. unfold key_verification in H. rewrite HK in H.
  destruct (k_cls k); try (injection H as <-; auto; fail); apply bind_err_inv in H as [H|(? & _ & H)]; try discriminate; eapply key_verify_err; eassumption.
Qed.

Lemma extra_get_err : forall k p x, extra_get k p = Err x -> x = AttributeError.
Proof. intros k p x H. unfold extra_get in H. destruct (dget _ _); congruence. Qed.

(** A number of the key: there, or the key has no such property. *)
Lemma filled_hex : forall k p q, place (k_cls k) p = Some q -> filled k q -> exists n, attr_hex k p = Ok n.
Proof.
  intros k p q HP (b & HB & HN). unfold attr_hex. rewrite prop_get_place, HP, HB. cbn [bind as_bytes]. destruct b; [congruence|eauto].
Qed.
Lemma filled_int : forall k p q b, place (k_cls k) p = Some q -> param k q = Some (VBytes b) -> exists n, attr_int k p = Ok n.
Proof.
  intros k p q b HP HB. unfold attr_int. rewrite prop_get_place, HP, HB. cbn [bind as_bytes]. eauto.
Qed.

Lemma foreign_property : forall k p, typed k -> place (k_cls k) p = None -> prop_get k p = Err AttributeError.
Proof.
  intros k p (_ & _ & _ & HE & _) HP. rewrite prop_get_place, HP. unfold extra_get.
  assert (H : dget (k_extra k) (VStr (bs (prop_name p))) = None); [|rewrite H; reflexivity].
  induction (k_extra k) as [|[a b] l IH]; [reflexivity|]. cbn [dget].
  assert (E : keyeq (VStr (bs (prop_name p))) a = false).
  { pose proof (HE (a, b) (or_introl eq_refl)) as HI. cbn [fst map In] in HI. destruct HI as [<-|[<-|[<-|[<-|[]]]]]; destruct p; vm_compute; reflexivity. }
  rewrite E. apply IH. intros e He. apply HE. right. exact He.
Qed.

Definition verify_trouble (a : pyval) (k : key) (s : pyval) (x : exn) : Prop :=
  is_cose_exception x = true \/ verify_failure X x \/
  (In x [AttributeError; ValueError; CryptoError] /\ forall z, a = alg z -> ~ sig_algorithm (k_cls k) z) \/
  (x = TypeError /\ forall b, s <> VBytes b).

Lemma as_bytes_err : forall v x, as_bytes v = Err x -> x = TypeError /\ forall b, v <> VBytes b.
Proof. intros v x H. destruct v; cbn [as_bytes] in H; try (injection H as <-; split; [reflexivity|intros ? ?; discriminate]). discriminate. Qed.

Lemma alg_verify_err : forall a k t s x u, typed k -> k_cls k <> KSym -> has_sign a = Ok u ->
  alg_verify X a k t s = Err x -> verify_trouble a k s x.
Proof.
  intros a k t s x u HT HN HS H. unfold alg_verify in H. unfold has_sign in HS. destruct (alg_kind a) as [q|] eqn:EK; [|discriminate].
  destruct (kind_in a q EK) as (z & -> & HI). pose proof (proj1 (Forall_forall _ _) kinds_of_keys _ HI) as HQ. cbn [fst snd] in HQ.
  assert (HM : forall y, In y [AttributeError; ValueError; CryptoError] -> ~ sig_algorithm (k_cls k) z -> verify_trouble (alg z) k s y).
  { intros y HY HZ. right. right. left. split; [exact HY|]. intros z' E. injection E as <-. exact HZ. }
  assert (HB : forall y, as_bytes s = Err y -> verify_trouble (alg z) k s y).
  { intros y HY. right. right. right. apply as_bytes_err. exact HY. }
  pose proof HT as (_ & _ & _ & _ & HC). destruct q; try discriminate; clear HS; cbn iota in HQ.
  - assert (HK : k_cls k = KRSA \/ k_cls k <> KRSA) by (destruct (k_cls k); [right|right|right|left]; congruence).
    destruct HK as [HK|HK].
    + rewrite HK in HC. destruct HC as (bn & be & HCN & HCE). destruct (filled_int k PE RSAKpE be) as [e HE]; [rewrite HK; reflexivity|exact HCE|].
      destruct (filled_int k PN RSAKpN bn) as [n Hn]; [rewrite HK; reflexivity|exact HCN|].
      unfold rsa_public_numbers in H. rewrite HE, Hn in H. cbn [bind] in H. apply bind_err_inv in H as [H|(b & _ & H)]; [auto|].
      right. left. left. eauto 8.
    + assert (HP : place (k_cls k) PE = None) by (destruct (k_cls k); congruence || reflexivity).
      unfold rsa_public_numbers, attr_int in H. rewrite (foreign_property k PE HT HP) in H. cbn [bind] in H. injection H as <-.
      apply HM; [left; reflexivity|]. intros HZ. exact (HK (HQ _ HZ)).
  - apply HM; [|exact (HQ _)]. apply bind_err_inv in H as [H|(b & _ & H)]; [|injection H as <-; cbn; auto].
    destruct (k_cls k) eqn:HK; [congruence| | |].
    1, 2: assert (HP : place (k_cls k) PE = None) by (rewrite HK; reflexivity);
      unfold rsa_public_numbers, attr_int in H; rewrite (foreign_property k PE HT HP) in H; cbn [bind] in H; injection H as <-; cbn; auto.
    destruct HC as (bn & be & HCN & HCE). destruct (filled_int k PE RSAKpE be) as [e HE]; [rewrite HK; reflexivity|exact HCE|].
    destruct (filled_int k PN RSAKpN bn) as [n Hn]; [rewrite HK; reflexivity|exact HCN|].
    unfold rsa_public_numbers in H. rewrite HE, Hn in H. discriminate.
  - destruct (k_cls k) eqn:HK; [congruence| | |].
    + apply HM; [|intros HZ; discriminate (HQ _ HZ)]. destruct HC as [_ HC].
      apply bind_err_inv in H as [H|(b & _ & H)].
      * unfold attr_hex in H. rewrite prop_get_place, HK in H. cbn [place bytes_prop absent_value] in H. destruct (param k OKPKpX) as [v|].
        -- destruct (HC v eq_refl) as [b ->]. cbn [bind as_bytes] in H. destruct b; [injection H as <-; cbn; auto|discriminate].
        -- injection H as <-. cbn. auto.
      * apply bind_err_inv in H as [H|(b' & Hb' & H)].
        -- unfold attr_hex in H. rewrite (foreign_property k PY HT) in H by (rewrite HK; reflexivity). cbn [bind] in H. injection H as <-. cbn; auto.
        -- unfold attr_hex in Hb'. rewrite (foreign_property k PY HT) in Hb' by (rewrite HK; reflexivity). discriminate.
    + destruct HC as (HCX & HCY & _). destruct (filled_hex k PX EC2KpX) as [a Ha]; [rewrite HK; reflexivity|exact HCX|].
      destruct (filled_hex k PY EC2KpY) as [b Hb]; [rewrite HK; reflexivity|exact HCY|]. rewrite Ha, Hb in H. cbn [bind] in H.
      apply bind_err_inv in H as [H|(b' & _ & H)]; [auto|]. right. left. right. left. eauto 8.
    + apply HM; [|intros HZ; discriminate (HQ _ HZ)]. unfold attr_hex in H. rewrite (foreign_property k PX HT) in H by (rewrite HK; reflexivity).
      cbn [bind] in H. injection H as <-. cbn; auto.
  - destruct (k_cls k) eqn:HK; [congruence| | |].
    3: { apply HM; [|intros HZ; discriminate (HQ _ HZ)]. unfold ed_curve in H. rewrite (foreign_property k PCrv HT) in H by (rewrite HK; reflexivity).
      cbn [bind] in H. injection H as <-. cbn; auto. }
    all: assert (HV : exists c, prop_get k PCrv = Ok (VClass c)) by (
      first [destruct HC as (_ & _ & c & HC)|destruct HC as ((c & HC) & _)]; exists c; rewrite prop_get_place, HK; cbn [place crv_prop]; rewrite HC; reflexivity).
    all: assert (HX : exists b, attr_bytes k PX = Ok b) by (
      unfold attr_bytes; rewrite prop_get_place, HK; cbn [place bytes_prop absent_value];
      first [destruct HC as ((b & HC & _) & _); rewrite HC; cbn [bind as_bytes]; eauto
            |destruct HC as (_ & HC); destruct (param k OKPKpX) as [v|]; [destruct (HC v eq_refl) as [b ->]|]; cbn [bind as_bytes]; eauto]).
    all: destruct HX as [b HX]; destruct HV as [c HV]; apply bind_err_inv in H as [H|(cu & _ & H)];
      [unfold ed_curve in H; rewrite HV in H; cbn [bind] in H; destruct (bytes_eqb _ _); [discriminate|]; destruct (bytes_eqb _ _); [discriminate|]; injection H as <-; left; reflexivity|].
    all: rewrite HX in H; cbn [bind] in H; apply bind_err_inv in H as [H|(b' & _ & H)]; [auto|]; right; left; right; right; eauto 8.
Qed.

Lemma sig_parts_in : forall m c d l p q, encodable m ->
  (p = [] \/ phdr_raw m = Some p) -> (forall b, In b q -> b = [] \/ phdr_raw c = Some b) -> (payload m = Some l \/ payload m = None /\ d = Some l) ->
  forall b, In b (p :: q ++ [aad c; l]) -> b = [] \/ In b (parts m d ++ parts c d).
Proof.
  intros m c d l p q HE HP HQ HL b HI. rewrite in_app_iff. destruct HI as [<-|HI].
  { destruct HP as [HP|HP]; [auto|]. right. left. apply parts_raw. exact HP. }
  apply in_app_iff in HI as [HI|[<-|[<-|[]]]].
  - destruct (HQ b HI) as [HB|HB]; [auto|]. right. right. apply parts_raw. exact HB.
  - right. right. apply parts_aad.
  - right. left. destruct HL as [HL|[_ ->]]; [apply parts_payload; exact HL|apply parts_detached].
Qed.

Lemma sig_payload_cases : forall m d,
  (exists l, sig_payload (payload m) (vopt d) = Ok (VBytes l) /\ (payload m = Some l \/ payload m = None /\ d = Some l)) \/
  sig_payload (payload m) (vopt d) = Err CoseException.
Proof. intros m [d|]; cbn [vopt]; destruct (payload m) as [l|]; cbn [sig_payload]; eauto 8. Qed.

Lemma sign1_structure_err : forall c d x, encodable c -> sign1_structure c (vopt d) = Err x ->
  is_cose_exception x = true \/ (x = OverflowError /\ oversized (parts c d ++ parts c d)).
Proof.
  intros c d x HE H. unfold sign1_structure in H. destruct (encodable_base c HE) as (p & HP & HR). rewrite HP in H. cbn [bind] in H.
  destruct (sig_payload_cases c d) as [(l & HL & HW)|HL]; rewrite HL in H; cbn [bind] in H; [|injection H as <-; auto].
  apply (structure_err "Signature1" [p; aad c; l]) in H as [-> H]; [|reflexivity|cbn; lia]. right. split; [reflexivity|].
  eapply oversized_incl; [|exact H]. intros b HI. eapply (sig_parts_in c c d l p []); try eassumption. intros ? [].
Qed.

Lemma signer_structure_err : forall m c d x, encodable m -> encodable c -> signer_structure (Some m) c (vopt d) = Err x ->
  is_cose_exception x = true \/ (x = OverflowError /\ oversized (parts m d ++ parts c d)).
Proof.
  intros m c d x HE HF H. unfold signer_structure in H. destruct (encodable_phdr m HE) as (p & HP & HR). rewrite HP in H. cbn [bind] in H.
  destruct (encodable_phdr c HF) as (q & HQ & HQR).
  assert (HS : exists l, match phdr c with [] => Ok [] | _ => p <- phdr_encoded c;; Ok [VBytes p] end = Ok (map VBytes l) /\
    (length l <= 1)%nat /\ forall b, In b l -> b = [] \/ phdr_raw c = Some b).
  { destruct (phdr c); [exists []; repeat split; [cbn; lia|intros ? []]|]. rewrite HQ. exists [q]. repeat split; [cbn; lia|]. intros b [<-|[]]. exact HQR. }
  destruct HS as (q' & HS & HL' & HI'). rewrite HS in H. cbn [bind] in H.
  destruct (sig_payload_cases m d) as [(l & HL & HW)|HL]; rewrite HL in H; cbn [bind] in H; [|injection H as <-; auto].
  replace ([VStr (bs "Signature"); VBytes p] ++ map VBytes q' ++ [VBytes (aad c); VBytes l]) with (VStr (bs "Signature") :: map VBytes (p :: q' ++ [aad c; l])) in H
    by (cbn [map app]; rewrite map_app; reflexivity).
  apply structure_err in H as [-> H].
  - right. split; [reflexivity|]. eapply oversized_incl; [|exact H]. eapply sig_parts_in; eassumption.
  - reflexivity.
  - cbn [length]. rewrite app_length. cbn [length]. lia.
Qed.

Lemma verify_signature_err : forall m c k st s d x, ckey c = Some k -> typed k ->
  (forall y, st = Err y -> is_cose_exception y = true \/ (y = OverflowError /\ oversized (parts m d ++ parts c d))) ->
  verify_signature X c st s = Err x -> is_cose_exception x = true \/ sig_surprise X m c (k_cls k) s d x.
Proof.
  intros m c k st s d x HK HT HST H. unfold verify_signature in H. apply bind_err_inv in H as [H|(a & HA & H)]; [apply get_attr_err in H; subst x; auto|].
  apply bind_err_inv in H as [H|(k' & HV & H)].
  { eapply key_verification_err in H as [H|[-> H]]; [auto| |exact HK|exact HT]. right. right. left. split; [left; reflexivity|]. eapply not_class; eassumption. }
  assert (HKK : k' = k /\ k_cls k <> KSym).
  { unfold key_verification in HV. rewrite HK in HV. destruct (k_cls k) eqn:EC; [discriminate| | |]; apply bind_ok in HV as (? & _ & HV); injection HV as <-; split; [reflexivity|discriminate|reflexivity|discriminate|reflexivity|discriminate]. }
  destruct HKK as [-> HN].
  apply bind_err_inv in H as [H|(u' & HM & H)].
  { apply (has_sign_err (k_cls k)) in H as [-> H]. right. right. left. split; [left; reflexivity|]. eapply declared; eassumption. }
  apply bind_err_inv in H as [H|(t & _ & H)].
  { destruct (HST x H) as [HX|HX]; [auto|]. right. right. right. right. exact HX. }
  destruct (alg_verify_err a k t s x _ HT HN HM H) as [H'|[H'|[[H' HZ]|H']]]; [auto|right; left; exact H'| |right; right; right; left; exact H'].
  right. right. left. split; [exact H'|]. eapply declared; eassumption.
Qed.

(** ** Decryption *)

Definition byte_ivs (c : core) : Prop :=
  forall h v, In h [IV; PartialIV] -> get_attr c h = Ok v -> v = VNone \/ exists b, v = VBytes b.

Lemma legal_ivs : forall c, legal_headers (phdr c) -> legal_headers (uhdr c) -> byte_ivs c.
Proof.
  intros c (HP & _) (HU & _) h v HI H.
  assert (HG : forall d w, (forall z v, In z bstr_headers -> dget d (hdr z) = Some v -> is_bytes_value v) -> dget_or d h VNone = w -> w = VNone \/ exists b, w = VBytes b).
  { intros d w HD HW. unfold dget_or in HW. destruct (dget d h) as [u|] eqn:E; [|auto]. subst w. right.
    cbn [In] in HI. destruct HI as [<-|[<-|[]]]; [apply (HD 5%Z u)|apply (HD 6%Z u)]; try exact E; cbn; auto. }
  unfold get_attr, get_attr_default in H. cbv zeta in H. destruct (_ && _); [discriminate|].
  destruct (negb (is_none (dget_or (phdr c) h VNone))); injection H as <-; eapply HG; try reflexivity; assumption.
Qed.

Lemma get_nonce_err : forall c k x, ckey c = Some k -> typed k -> byte_ivs c -> get_nonce c = Err x ->
  is_cose_exception x = true \/
  (x = TypeError /\ get_attr c IV = Ok VNone /\ get_attr c PartialIV = Ok VNone /\ exists v, param k KpBaseIV = Some v).
Proof.
  intros c k x HK (_ & _ & HB & _) HI H. unfold get_nonce in H. apply bind_err_inv in H as [H|(iv & HV & H)]; [apply get_attr_err in H; subst x; auto|].
  destruct (is_none iv) eqn:EN; [|discriminate]. rewrite HK in H. rewrite prop_get_place in H. cbn [place bytes_prop absent_value] in H.
  assert (EV : iv = VNone) by (destruct iv; try discriminate; reflexivity). subst iv.
  destruct (param k KpBaseIV) as [w|] eqn:EW; [|injection H as <-; auto]. destruct (HB w eq_refl) as [b ->]. cbn [bind] in H.
  destruct (veqb _ _); [injection H as <-; auto|]. apply bind_err_inv in H as [H|(p & HP & H)]; [apply get_attr_err in H; subst x; auto|].
  destruct (HI PartialIV p (or_intror (or_introl eq_refl)) HP) as [-> | [b' ->]]; [|discriminate].
  injection H as <-. right. repeat split; eauto.
Qed.

Lemma get_nonce_bytes : forall c n, byte_ivs c -> get_nonce c = Ok n -> exists b, n = VBytes b.
Proof.
  intros c n HI H. unfold get_nonce in H. apply bind_ok in H as (iv & HV & H). destruct (HI IV iv (or_introl eq_refl) HV) as [-> | [b ->]].
  - cbn [is_none] in H. destruct (ckey c); [|discriminate]. apply bind_ok in H as (w & _ & H). destruct (veqb _ _); [discriminate|].
    apply bind_ok in H as (? & _ & H). apply bind_ok in H as (? & _ & H). apply bind_ok in H as (? & _ & H). injection H as <-. eauto.
  - cbn [is_none] in H. injection H as <-. eauto.
Qed.

Lemma enc_decrypt_err : forall ctx c k x, short_ctx ctx -> encodable c -> byte_ivs c -> ckey c = Some k -> typed k ->
  enc_decrypt X ctx c = Err x -> is_cose_exception x = true \/ enc_surprise X c k x.
Proof.
  intros ctx c k x HS HE HI HK HT H. unfold enc_decrypt in H. apply bind_err_inv in H as [H|(a & HA & H)]; [apply get_attr_err in H; subst x; auto|].
  apply bind_err_inv in H as [H|(n & HN & H)].
  { destruct (get_nonce_err c k x HK HT HI H) as [HX|(-> & HX)]; [auto|]. right. right. right. left. auto. }
  destruct (get_nonce_bytes c n HI HN) as [nb ->]. rewrite HK in H. apply bind_err_inv in H as [H|(u & HV & H)].
  { apply key_verify_err in H as [H|[-> H]]; [auto| |exact HT]. right. right. left. split; [reflexivity|]. eapply not_class; eassumption. }
  apply bind_err_inv in H as [H|(u' & HM & H)].
  { apply has_enc_err in H as [-> H]. right. right. left. split; [reflexivity|]. eapply declared; eassumption. }
  apply bind_err_inv in H as [H|(t & _ & H)].
  - right. right. right. right. unfold enc_structure in H. destruct (encodable_base c HE) as (p & HP & HR). rewrite HP in H. cbn [bind] in H.
    apply (structure_err ctx [p; aad c]) in H as [-> H]; [|exact HS|cbn; lia]. split; [reflexivity|].
    eapply oversized_incl; [|exact H]. intros b [<-|[<-|[]]]; [|right; apply parts_aad].
    destruct HR as [-> | HR]; [auto|right; apply parts_raw; exact HR].
  - right. apply key_verify_cls in HV. destruct (typed_secret k HT HV) as (b & HB & _). unfold has_enc in HM. unfold alg_decrypt in H.
    destruct (alg_kind a) as [[]|]; try discriminate; unfold attr_bytes in H; rewrite HB in H; cbn [bind as_bytes] in H;
    (destruct (payload c) as [pl|] eqn:EP; cbn [vopt as_bytes bind] in H; [left|injection H as <-; right; right; left; split; [reflexivity|left; exact EP]]).
    + left. eauto 8.
    + right. eauto 8.
Qed.

(** ** Received objects *)

Lemma received_object : forall allow obj c rest k a, core_from_obj X allow obj = Ok (c, rest) ->
  encodable (equip c k a) /\ byte_ivs (equip c k a) /\ ckey (equip c k a) = Some k.
Proof.
  intros allow obj c rest k a H. split; [|split; [|reflexivity]].
  - unfold encodable. cbn. eapply received_protected. exact H.
  - apply legal_ivs; cbn.
    all: apply core_from_obj_inv in H as (p & u & pl & c0 & -> & HI & _ & EC); rewrite EC; cbn [phdr uhdr with_payload];
      apply core_init_inv in HI as (pd & ud & _ & _ & H1 & H2 & _); eapply parse_items_stored_legal; eassumption.
Qed.

Lemma received_signer : forall allow obj m s, sign_from_obj X allow obj = Ok m -> In s (sm_signers m) -> exists l rest, core_from_obj X allow l = Ok (s, rest).
Proof.
  intros allow obj m s H HI. unfold sign_from_obj in H. apply bind_ok in H as ([c rest] & _ & H). destruct rest as [|v rest]; [discriminate|].
  apply bind_ok in H as (l & _ & H). apply bind_ok in H as (ss & HS & H). injection H as <-. cbn [sm_signers] in HI.
  revert ss HS HI. induction l as [|r l IH]; intros ss HS HI; cbn [mapM] in HS; [injection HS as <-; destruct HI|].
  apply bind_ok in HS as (s0 & HR & HS). apply bind_ok in HS as (ss' & HSS & HS). injection HS as <-. destruct HI as [->|HI]; [|eapply IH; eassumption].
  destruct r; try discriminate. apply bind_ok in HR as ([c' rest'] & HR & HE). injection HE as <-. eauto.
Qed.

End Check.

(** ** Constructed keys *)

Definition rsa_names : list pyval := map (fun n => VStr (bs n)) ["other"; "r_i"; "d_i"; "t_i"]%string.
Definition extras_ok (k : key) : Prop := forall e, In e (k_extra k) -> In (fst e) rsa_names.

Lemma common_init_extra : forall c opt allow k, common_init c opt allow = Ok k -> k_extra k = [] /\ k_cls k = c.
Proof.
  intros c opt allow k H. pose proof (common_init_fresh _ _ _ _ H) as HF. split; [|apply (fr_cls _ _ HF)].
  unfold common_init in H. apply bind_ok in H as (o & _ & H). apply bind_ok in H as (d & _ & H). destruct (veqb _ _); [|discriminate].
  unfold base_init in H. destruct (dget d (VClass KpKeyOps)).
  - apply bind_ok in H as (n & _ & H). destruct (Nat.eqb n 0); injection H as <-; reflexivity.
  - injection H as <-. reflexivity.
Qed.

Lemma extras_nil : forall k, k_extra k = [] -> extras_ok k.
Proof. intros k H e HI. rewrite H in HI. destruct HI. Qed.

Lemma dset_keys : forall d k v e, In e (dset d k v) -> (exists e', In e' d /\ fst e' = fst e) \/ fst e = k.
Proof.
  induction d as [|[a b] d IH]; intros k v e H; cbn [dset] in H.
  - destruct H as [<-|[]]. auto.
  - destruct (keyeq k a).
    + destruct H as [<-|H]; left; [exists (a, b)|exists e]; cbn; auto.
    + destruct H as [<-|H]; [left; exists (a, b); cbn; auto|]. destruct (IH k v e H) as [(e' & HI & HE)|HE]; [left; exists e'; cbn; auto|auto].
Qed.

Lemma extras_set : forall n v k, In (VStr (bs n)) rsa_names -> extras_ok k -> extras_ok (extra_set n v k).
Proof.
  intros n v k HN HK e HI. cbn in HI. apply dset_keys in HI as [(e' & HI & HE)|HE]; [rewrite <- HE; apply HK; exact HI|rewrite HE; exact HN].
Qed.

Lemma ec2_typed : forall X crv x y d opt allow k, ec2_init X crv x y d opt allow = Ok k ->
  filled k EC2KpX /\ filled k EC2KpY /\ exists c, param k EC2KpCurve = Some (VClass c).
Proof.
  intros X crv x y d opt allow k H. pose proof H as H'.
  apply ec2_init_store in H as (k0 & cv & x1 & y1 & y2 & H0 & HN & HC & HK & HT & HP & HY & (bx & by_ & bd & Ex & Ey & Ed) & ->). subst x1 y2 d.
  destruct (ec2_curve_size _ HK) as [sz HSZ].
  assert (HB : bx <> [] /\ by_ <> []).
  { destruct (truthy (VBytes bd)) eqn:ED.
    - assert (HD : bd <> []) by (intros ->; discriminate). destruct (ec2_private_consistent X _ _ _ _ _ _ _ H' HD) as (cv' & px & py & bx' & by' & HCV & _ & L1 & _ & L2 & _ & P1 & P2 & _).
      unfold param in HCV, P1, P2. cbn [k_store] in HCV, P1, P2. rewrite !dget_put_other in HCV by discriminate. rewrite dget_dset_same in HCV by apply keyeq_refl. injection HCV as <-.
      rewrite HSZ in L1, L2.
      unfold ec2_from_private in HP. cbn [as_bytes bind] in HP. apply bind_ok in HP as ([qx qy] & HQ & HP).
      apply bind_ok in HP as (b1 & HB1 & HP). apply bind_ok in HP as (x' & HX' & HP). apply bind_ok in HP as (b2 & HB2 & HP). apply bind_ok in HP as (y' & HY' & HP).
      injection HP as -> ->. apply to_bytes_checked_ok in HB1 as [L3 _]. apply to_bytes_checked_ok in HB2 as [L4 _]. rewrite HSZ in L3, L4.
      assert (EX : bx = b1).
      { destruct (truthy x); [destruct (veqb x (VBytes b1)) eqn:E; [|discriminate]; apply veqb_eq in E; subst x|]; injection HX' as ->; reflexivity. }
      assert (EY : y1 = VBytes b2).
      { destruct (truthy y); [destruct (veqb y (VBytes b2)) eqn:E; [|discriminate]; apply veqb_eq in E; subst y|]; injection HY' as ->; reflexivity. }
      subst. split; [intros ->; discriminate|]. destruct b2; [discriminate|]. rewrite andb_false_r in HY. injection HY as <-. discriminate.
    - injection HP as -> ->. destruct HT as [HT|HT]; [discriminate|]. split; [intros ->; discriminate|]. rewrite HT in HY. cbn [andb] in HY.
      destruct (truthy y1) eqn:EY; cbn [negb] in HY; [injection HY as ->; intros ->; discriminate|].
      unfold ec2_decompress in HY. cbn [as_bytes bind] in HY. apply bind_ok in HY as ([px py] & _ & HY). apply bind_ok in HY as (b1 & _ & HY).
      destruct (veqb _ _); [|discriminate]. apply bind_ok in HY as (b2 & HB2 & HY). injection HY as ->. apply to_bytes_checked_ok in HB2 as [L _]. rewrite HSZ in L. intros ->. discriminate. }
  destruct HB as [HB1 HB2]. unfold filled, param. cbn [k_store]. split; [|split].
  - exists bx. split; [|exact HB1]. rewrite !dget_put_other by discriminate. apply dget_put_same. congruence.
  - exists by_. split; [|exact HB2]. rewrite dget_put_other by discriminate. apply dget_put_same. congruence.
  - exists cv. rewrite !dget_put_other by discriminate. apply dget_dset_same, keyeq_refl.
Qed.

Lemma rsa_typed : forall a opt allow k, rsa_init a opt allow = Ok k ->
  k_cls k = KRSA /\ extras_ok k /\ exists n e, param k RSAKpN = Some (VBytes n) /\ param k RSAKpE = Some (VBytes e).
Proof.
  intros a opt allow k H. unfold rsa_init in H. cbv zeta in H. apply bind_ok in H as (ok & _ & H). destruct ok; [|discriminate]. cbn [negb] in H.
  apply bind_ok in H as (k0 & H0 & H). apply common_init_extra in H0 as [HX HC].
  apply bind_ok in H as (k1 & H1 & H). apply bind_ok in H as (k2 & H2 & H).
  apply set_bytes_param_ok in H1 as [[e HE] H1]. apply set_bytes_param_ok in H2 as [[n HN] H2]. rewrite HE in H1. rewrite HN in H2.
  set (P := fun k => k_cls k = KRSA /\ k_extra k = [] /\ param k RSAKpN = Some (VBytes n) /\ param k RSAKpE = Some (VBytes e)).
  assert (HP : P k2).
  { split; [rewrite (up_cls _ _ _ _ H2), (up_cls _ _ _ _ H1); exact HC|]. split; [rewrite (up_extra _ _ _ _ H2), (up_extra _ _ _ _ H1); exact HX|].
    split; [apply (updates_same _ _ _ _ H2)|]. rewrite (updates_other _ _ _ _ RSAKpE H2) by discriminate. apply (updates_same _ _ _ _ H1). }
  assert (HS : forall p v k k', p <> RSAKpN -> p <> RSAKpE -> set_unless_empty p v k = Ok k' -> P k -> P k').
  { intros p v q q' N1 N2 HU (A & B & C & D). apply set_unless_empty_ok in HU as [[_ ->]|[_ HU]]; [repeat split; assumption|].
    split; [rewrite (up_cls _ _ _ _ HU); exact A|]. split; [rewrite (up_extra _ _ _ _ HU); exact B|].
    split; rewrite (updates_other _ _ _ _ _ HU) by congruence; assumption. }
  do 6 (let q := fresh "q" in let E := fresh "E" in apply bind_ok in H as (q & E & H); apply HS in E; [|discriminate|discriminate|assumption]).
  clear HP HS. injection H as <-.
  set (R := fun k => k_cls k = KRSA /\ extras_ok k /\ param k RSAKpN = Some (VBytes n) /\ param k RSAKpE = Some (VBytes e)).
  assert (HR : forall m v k, In (VStr (bs m)) rsa_names -> R k -> R (extra_set m v k)).
  { intros m v kk HM (A & B & C & D). split; [exact A|]. split; [apply extras_set; assumption|]. split; assumption. }
  assert (HQ : forall m v k, In (VStr (bs m)) rsa_names -> R k -> R (extra_unless_empty m v k)).
  { intros m v kk HM HK. unfold extra_unless_empty. destruct (veqb _ _); [exact HK|apply HR; assumption]. }
  match goal with |- k_cls ?k = _ /\ _ => assert (HK : R k) end.
  { do 3 (apply HQ; [cbn; tauto|]). match goal with |- R (if ?b then _ else _) => destruct b end; [apply HR; [cbn; tauto|]|];
      match goal with H : P ?q |- R ?q => destruct H as (A & B & C & D); repeat split; try assumption; apply extras_nil; exact B end. }
  destruct HK as (A & B & C & D). split; [exact A|]. split; [exact B|]. exists n, e. split; assumption.
Qed.

Lemma constructed_typed : forall X k, constructed X k ->
  (forall v, param k KpAlg = Some v -> exists a, v = VClass a) ->
  (forall v, param k KpBaseIV = Some v -> exists b, v = VBytes b) ->
  (forall v, k_cls k = KOKP -> param k OKPKpX = Some v -> exists b, v = VBytes b) -> typed k.
Proof.
  intros X k H HA HB HX. pose proof (constructed_ops X k H) as HO.
  assert (HL : forall v, param k KpKeyOps = Some v -> exists l, v = VList l).
  { intros v HV. destruct HO as [_ HO]. exact (HO KpKeyOps v HV eq_refl). }
  clear HO. split; [exact HA|]. split; [exact HL|]. split; [exact HB|]. clear HA HL HB.
  change (extras_ok k /\ match k_cls k with
    | KSym => exists b, param k SymKpK = Some (VBytes b) /\ In (length b) [16; 24; 32]
    | KEC2 => filled k EC2KpX /\ filled k EC2KpY /\ exists c, param k EC2KpCurve = Some (VClass c)
    | KOKP => (exists c, param k OKPKpCurve = Some (VClass c)) /\ (forall v, param k OKPKpX = Some v -> exists b, v = VBytes b)
    | KRSA => exists n e, param k RSAKpN = Some (VBytes n) /\ param k RSAKpE = Some (VBytes e)
    end).
  destruct H as [kv opt allow k H|crv x d opt allow k H|crv x y d opt allow k H|a opt allow k H].
  - unfold sym_init in H. apply bind_ok in H as (k0 & H0 & H). apply common_init_extra in H0 as [HE HC]. destruct (veqb _ _); [discriminate|].
    apply set_k_ok in H as [(b & -> & HB) HU]. split; [apply extras_nil; rewrite (up_extra _ _ _ _ HU); exact HE|].
    rewrite (up_cls _ _ _ _ HU), HC. exists b. split; [apply (updates_same _ _ _ _ HU)|exact HB].
  - unfold okp_init in H. apply bind_ok in H as (k0 & H0 & H). apply common_init_extra in H0 as [HE HC]. apply bind_ok in H as (nx & _ & H). apply bind_ok in H as (nn & _ & H).
    destruct nn; [discriminate|]. destruct (is_none crv); [discriminate|]. apply bind_ok in H as (k1 & H1 & H). apply bind_ok in H as (k2 & H2 & H).
    unfold set_crv in H1. apply bind_ok in H1 as (w & _ & H1). destruct w; try discriminate. destruct (veqb _ _); [|discriminate]. injection H1 as <-.
    apply set_unless_put in H2 as [_ ->]. apply set_unless_put in H as [_ ->]. unfold store_set, with_store in *. cbn [k_cls k_store k_extra] in *.
    split; [apply extras_nil; exact HE|]. cbn [k_cls]. rewrite HC in *. split; [|intros v HV; apply HX; [reflexivity|exact HV]].
    eexists. unfold param. cbn [k_store]. rewrite !dget_put_other by discriminate. apply dget_dset_same, keyeq_refl.
  - pose proof (ec2_typed X _ _ _ _ _ _ _ H) as HT. apply ec2_init_store in H as (k0 & cv & x1 & y1 & y2 & _ & _ & _ & _ & _ & _ & _ & _ & ->).
    split; [apply extras_nil; reflexivity|exact HT].
  - apply rsa_typed in H as (HC & HE & HR). rewrite HC. split; assumption.
Qed.
