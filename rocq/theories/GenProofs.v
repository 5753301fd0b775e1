(** Lemmas about generated and imported keys (C42, C76). *)
From Coq Require Import NArith ZArith Bool String Lia.
From Coq Require Import Init.Byte List.
From Verif Require Import Bytes BytesProofs Value ValueProofs Registry RegistryProofs Crypto SpecCrypto Toy Keys
  SpecRegistry SpecData SpecKeys SpecAlg SpecHdr SpecTrip SpecMsg SpecGen KeyProofs KeyProofs2 KeyProofs3 KeyProofs4 HdrProofs.
Import ListNotations.
Local Open Scope result_scope.

Lemma toy_ec_gen : law_ec_gen toy.
Proof.
  intros c size seed H. cbn [x_ec_gen toy x_ec_pub].
  assert (HS : (2001 < 256 ^ N.of_nat size)%N).
  { repeat (destruct H as [H|H]; [injection H as <- <-; vm_compute; reflexivity|]). destruct H. }
  assert (HM : (seed mod 1000 < 1000)%N) by (apply N.mod_lt; lia).
  split; [lia|]. do 2 eexists. split; [reflexivity|]. split; lia.
Qed.

Lemma toy_okp_gen : law_okp_gen toy.
Proof.
  intros c seed _. cbn [x_okp_gen x_okp_pub toy].
  assert (HN : mix 32 (min_be seed) <> []).
  { intros H. apply (f_equal (@length _)) in H. rewrite mix_length in H. discriminate. }
  split; assumption.
Qed.

Lemma prime_3 : Znumtheory.prime 3. Proof. exact Znumtheory.prime_3. Qed.
Lemma prime_5 : Znumtheory.prime 5.
Proof.
  constructor; [lia|]. intros n Hn. assert (HC : n = 1%Z \/ n = 2%Z \/ n = 3%Z \/ n = 4%Z) by lia.
  unfold Znumtheory.rel_prime. destruct HC as [-> |[-> |[-> | ->]]]; apply Znumtheory.Zis_gcd_intro;
    try (exists 1%Z; lia) || (try (eexists; symmetry; apply Z.mul_1_r)); try (intros x [a Ha] [b Hb]).
  all: try (exists 5%Z; reflexivity); try (exists 4%Z; reflexivity); try (exists 3%Z; reflexivity); try (exists 2%Z; reflexivity).
  - exists a. lia.
  - exists (b - 2 * a)%Z. lia.
  - exists (2 * a - b)%Z. lia.
  - exists (b - a)%Z. lia.
Qed.

Lemma toy_rsa_gen : law_rsa_gen toy.
Proof.
  intros bits seed q H. injection H as <-. split.
  - unfold rsa_consistent. cbn [rsa_p rsa_q rsa_d rsa_dmp1 rsa_dmq1 rsa_iqmp rsa_public rsa_e rsa_n Z.of_N].
    split; [apply prime_3|]. split; [apply prime_5|]. split; [discriminate|]. split; [reflexivity|].
    split; [exists 2%Z; reflexivity|]. split; [exists 1%Z; reflexivity|]. split; [exists 2%Z; reflexivity|]. exists 3%Z; reflexivity.
  - unfold rsa_positive. cbn [rsa_p rsa_q rsa_d rsa_dmp1 rsa_dmq1 rsa_iqmp rsa_public rsa_e rsa_n]. repeat split; discriminate.
Qed.

(** ** Symmetric keys *)

Section WithCrypto.
Variable X : crypto.

Lemma sym_generate_ok : forall seed len, law_urandom_len X -> In len [16; 24; 32]%Z ->
  exists k, sym_generate X seed len VNone = Ok k /\ k_cls k = KSym /\
    param k KpKty = Some (kty_of KSym) /\ unrestricted k /\
    secret k (x_urandom X seed (Z.to_nat len)) /\
    length (x_urandom X seed (Z.to_nat len)) = Z.to_nat len.
Proof.
  intros seed len HU HI. unfold sym_generate.
  assert (HE : existsb (Z.eqb len) [16; 24; 32]%Z = true).
  { apply existsb_exists. exists len. split; [assumption|apply Z.eqb_refl]. }
  rewrite HE. specialize (HU seed (Z.to_nat len)). set (b := x_urandom X seed (Z.to_nat len)) in *. clearbody b.
  unfold sym_init. assert (HN : veqb (VBytes b) (VBytes []) = false).
  { destruct (veqb (VBytes b) (VBytes [])) eqn:E; [|reflexivity]. apply veqb_eq in E. injection E as ->. 
    repeat (destruct HI as [<-|HI]; [discriminate|]). destruct HI. }
  assert (HC : common_init KSym VNone true = Ok (Key KSym [(VClass KpKty, kty_of KSym)] [])) by (vm_compute; reflexivity).
  rewrite HC. cbn [bind]. rewrite HN. unfold set_k. rewrite HU.
  assert (HB : existsb (Nat.eqb (Z.to_nat len)) [16; 24; 32] = true).
  { repeat (destruct HI as [<-|HI]; [reflexivity|]). destruct HI. }
  rewrite HB. eexists. split; [reflexivity|]. repeat split. 
Qed.

Lemma sym_generate_bad : forall seed len opt, ~ In len [16; 24; 32]%Z -> sym_generate X seed len opt = Err ValueError.
Proof.
  intros seed len opt HI. unfold sym_generate. destruct (existsb (Z.eqb len) [16; 24; 32]%Z) eqn:E; [|reflexivity].
  apply existsb_exists in E as (z & HZ & E). apply Z.eqb_eq in E. subst z. contradiction.
Qed.

(** ** Elliptic curves *)

Lemma ec2_curve_facts : forall c size, In (c, size) ec2_curves ->
  curve_key_type c = KtyEC2 /\ curve_size c = size /\ exists n, In (Cls FCrv c, n) (registered FCrv).
Proof.
  intros c size H.
  repeat (destruct H as [H|H]; [injection H as <- <-; split; [reflexivity|split; [reflexivity|]]; eexists; vm_compute; tauto|]).
  destruct H.
Qed.

Lemma okp_curve_facts : forall c, In c okp_curves -> curve_key_type c = KtyOKP /\ exists n, In (Cls FCrv c, n) (registered FCrv).
Proof.
  intros c H. repeat (destruct H as [<-|H]; [split; [reflexivity|]; eexists; vm_compute; tauto|]). destruct H.
Qed.

Lemma curve_key_types : forall c, (curve_key_type c = KtyEC2 /\ exists size, In (c, size) ec2_curves) \/
  (curve_key_type c = KtyOKP /\ In c okp_curves) \/ curve_key_type c = VNone.
Proof.
  intros c. unfold curve_key_type. destruct (existsb (Z.eqb c) [1; 2; 3; 8]%Z) eqn:E1.
  - left. split; [reflexivity|]. apply existsb_exists in E1 as (z & HZ & E). apply Z.eqb_eq in E. subst z.
    repeat (destruct HZ as [<-|HZ]; [eexists; cbn [ec2_curves In]; tauto|]). destruct HZ.
  - right. destruct (existsb (Z.eqb c) [4; 5; 6; 7]%Z) eqn:E2; [|right; reflexivity]. left. split; [reflexivity|].
    apply existsb_exists in E2 as (z & HZ & E). apply Z.eqb_eq in E. subst z. exact HZ.
Qed.

Lemma to_bytes_in : forall n m, (m < 256 ^ N.of_nat n)%N -> to_bytes_checked n m = Ok (to_be n m).
Proof. intros n m H. unfold to_bytes_checked. apply N.ltb_lt in H. rewrite H. reflexivity. Qed.

Lemma ec2_import_total : forall c size x y d, In (c, size) ec2_curves -> x_ec_pub X c d = Ok (x, y) ->
  (x < 256 ^ N.of_nat size)%N -> (y < 256 ^ N.of_nat size)%N -> (d < 256 ^ N.of_nat size)%N ->
  exists k, ec2_from_ext X (Some c) x y (Some d) VNone = Ok k /\ k_cls k = KEC2 /\ unrestricted k.
Proof.
  intros c size x y d HC HP HX HY HD. destruct (ec2_curve_facts _ _ HC) as (HK & HS & _).
  unfold ec2_from_ext. rewrite HS, (to_bytes_in _ _ HX), (to_bytes_in _ _ HY), (to_bytes_in _ _ HD). cbn [bind add_params truthy].
  assert (HT : forall m, truthy (VBytes (to_be size m)) = true).
  { intros m. cbn [truthy]. pose proof (to_be_length size m) as HL. destruct (to_be size m); [|reflexivity].
    destruct size; [|discriminate]. repeat (destruct HC as [HC|HC]; [discriminate|]). destruct HC. }
  match goal with |- exists k, ?r = _ /\ _ =>
    assert (HE : r = ec2_init X (VClass (Cls FCrv c)) (VBytes (to_be size x)) (VBytes (to_be size y)) (VBytes (to_be size d)) (VDict []) true) by reflexivity;
    rewrite HE end.
  unfold ec2_init.
  assert (HI : common_init KEC2 (VDict []) true = Ok (Key KEC2 [(VClass KpKty, kty_of KEC2)] [])) by (vm_compute; reflexivity).
  rewrite HI. cbn [bind is_none]. unfold set_crv at 1. rewrite (ec2_curve_registered _ HK). cbn [bind c_id]. rewrite HK.
  change (veqb KtyEC2 KtyEC2) with true. cbn [bind]. rewrite !HT. cbn [negb andb].
  unfold ec2_from_private. cbn [as_bytes bind].
  assert (HCI : crv_id (store_set (Key KEC2 [(VClass KpKty, kty_of KEC2)] []) EC2KpCurve (VClass (Cls FCrv c))) = c) by reflexivity.
  rewrite HCI. rewrite (of_be_to_be_small size d HD), HP. cbn [bind]. rewrite HS, (to_bytes_in _ _ HX), (to_bytes_in _ _ HY). cbn [bind].
  rewrite !HT. assert (HV : forall v, veqb v v = true) by (intros v; apply veqb_eq; reflexivity). rewrite !HV. cbn [bind]. rewrite !HT. cbn [negb andb bind].
  assert (HSB : forall p m k, set_unless_empty p (VBytes (to_be size m)) k = Ok (store_set k p (VBytes (to_be size m)))).
  { intros p m k. unfold set_unless_empty. pose proof (HT m) as HTM. cbn [truthy] in HTM.
    destruct (veqb (VBytes (to_be size m)) (VBytes [])) eqn:E; [|reflexivity]. apply veqb_eq in E. injection E as E. rewrite E in HTM. discriminate. }
  rewrite !HSB. cbn [bind]. rewrite HSB. cbn [bind]. rewrite HSB. eexists. split; [reflexivity|]. repeat split.
Qed.

Lemma ec2_generate_ok : forall seed c size n crv, law_ec_gen X -> In (c, size) ec2_curves ->
  In (Cls FCrv c, n) (registered FCrv) -> spells (Cls FCrv c) n crv ->
  exists k x y, ec2_generate X seed crv VNone = Ok k /\ k_cls k = KEC2 /\ unrestricted k /\
    param k EC2KpCurve = Some (VClass (Cls FCrv c)) /\ x_ec_pub X c (x_ec_gen X c seed) = Ok (x, y) /\
    stored_sized k EC2KpX size x /\ stored_sized k EC2KpY size y /\ stored_sized k EC2KpD size (x_ec_gen X c seed).
Proof.
  intros seed c size n crv HL HC HR HS. destruct (HL c size seed HC) as (HD & x & y & HP & HX & HY).
  destruct (ec2_curve_facts _ _ HC) as (HK & HSZ & _).
  unfold ec2_generate. rewrite (from_id_spells _ _ _ _ _ HR HS). cbn [bind c_id]. rewrite HK.
  change (veqb KtyEC2 KtyEC2) with true. cbn [bind]. rewrite HP. cbn [bind].
  destruct (ec2_import_total c size x y _ HC HP HX HY HD) as (k & HE & HKC & HUR). rewrite HE. exists k, x, y.
  split; [reflexivity|]. split; [assumption|]. split; [assumption|].
  destruct (ec2_import X c x y _ k HK HE) as (H1 & H2 & H3 & H4). rewrite HSZ in *. repeat (split; [assumption||reflexivity|]). assumption.
Qed.

Lemma okp_import : forall c pub priv, In c okp_curves -> pub <> [] ->
  exists k, okp_from_ext c pub priv VNone = Ok k /\ k_cls k = KOKP /\ unrestricted k /\
    param k OKPKpCurve = Some (VClass (Cls FCrv c)) /\ param k OKPKpX = Some (VBytes pub) /\
    param k OKPKpD = match priv with Some (b :: r) => Some (VBytes (b :: r)) | _ => None end.
Proof.
  intros c pub priv HC HP. destruct pub as [|b0 pub]; [contradiction|].
  repeat (destruct HC as [<-|HC]; [destruct priv as [[|b r]|]; eexists; (split; [vm_compute; reflexivity|]); repeat split|]).
  destruct HC.
Qed.

Lemma okp_generate_ok : forall seed c n crv, law_okp_gen X -> In c okp_curves ->
  In (Cls FCrv c, n) (registered FCrv) -> spells (Cls FCrv c) n crv ->
  exists k, okp_generate X seed crv VNone = Ok k /\ k_cls k = KOKP /\ unrestricted k /\
    param k OKPKpCurve = Some (VClass (Cls FCrv c)) /\
    param k OKPKpD = Some (VBytes (x_okp_gen X c seed)) /\
    param k OKPKpX = Some (VBytes (x_okp_pub X c (x_okp_gen X c seed))).
Proof.
  intros seed c n crv HL HC HR HS. destruct (HL c seed HC) as (HD & HX). destruct (okp_curve_facts _ HC) as (HK & _).
  unfold okp_generate. rewrite (from_id_spells _ _ _ _ _ HR HS). cbn [bind c_id]. rewrite HK.
  change (veqb KtyOKP KtyOKP) with true. cbv iota zeta.
  destruct (okp_import c _ (Some (x_okp_gen X c seed)) HC HX) as (k & -> & HKC & HUR & H1 & H2 & H3).
  exists k. repeat (split; [reflexivity||assumption|]). split; [|assumption].
  rewrite H3. destruct (x_okp_gen X c seed); [contradiction|reflexivity].
Qed.

Lemma generate_other_curve : forall seed c n crv, In (Cls FCrv c, n) (registered FCrv) -> spells (Cls FCrv c) n crv ->
  ((forall size, ~ In (c, size) ec2_curves) -> ec2_generate X seed crv VNone = Err CoseUnsupportedCurve) /\
  (~ In c okp_curves -> okp_generate X seed crv VNone = Err CoseUnsupportedCurve).
Proof.
  intros seed c n crv HR HS. unfold ec2_generate, okp_generate. rewrite (from_id_spells _ _ _ _ _ HR HS). cbn [bind c_id].
  destruct (curve_key_types c) as [(-> & size & HC)|[(-> & HC)| ->]].
  - split; intros HN; [destruct (HN _ HC)|reflexivity].
  - split; intros HN; [reflexivity|destruct (HN HC)].
  - split; reflexivity.
Qed.

Lemma generate_unknown_curve : forall seed crv opt, unknown_attr FCrv crv ->
  ec2_generate X seed crv opt = Err CoseException /\ okp_generate X seed crv opt = Err CoseException.
Proof.
  intros seed crv opt HU. unfold ec2_generate, okp_generate.
  assert (HE : from_id FCrv false crv = Err CoseException).
  { destruct (from_id FCrv false crv) as [w|e] eqn:E.
    - destruct (from_id_cases _ _ _ _ E) as [(c & n & HI & HS & ->)|[(HF & _)|(l & l' & -> & _)]]; [|discriminate|destruct HU].
      destruct (unknown_not_spelled _ _ _ _ HU HI HS).
    - f_equal. destruct crv; cbn [from_id] in E; try (destruct (dget _ _)); try congruence. destruct HU. }
  rewrite HE. split; reflexivity.
Qed.

Lemma rsa_import_cls : forall q, rsa_n (rsa_public q) <> 0%N -> rsa_e (rsa_public q) <> 0%N ->
  rsa_d q <> 0%N -> rsa_p q <> 0%N -> rsa_q q <> 0%N -> rsa_dmp1 q <> 0%N -> rsa_dmq1 q <> 0%N -> rsa_iqmp q <> 0%N ->
  exists k, rsa_from_ext (rsa_public q) (Some q) VNone = Ok k /\ k_cls k = KRSA /\ unrestricted k /\
  stored_min k RSAKpN (rsa_n (rsa_public q)) /\ stored_min k RSAKpE (rsa_e (rsa_public q)) /\
  stored_min k RSAKpD (rsa_d q) /\ stored_min k RSAKpP (rsa_p q) /\ stored_min k RSAKpQ (rsa_q q) /\
  stored_min k RSAKpDP (rsa_dmp1 q) /\ stored_min k RSAKpDQ (rsa_dmq1 q) /\ stored_min k RSAKpQInv (rsa_iqmp q).
Proof.
  intros [p q d dp dq qi [e n]]. unfold rsa_from_ext, stored_min.
  cbn [rsa_n rsa_e rsa_public rsa_d rsa_p rsa_q rsa_dmp1 rsa_dmq1 rsa_iqmp add_params truthy bind].
  intros Hn He Hd Hp Hq Hdp Hdq Hqi.
  gen_min n Hn. gen_min e He. gen_min d Hd. gen_min p Hp. gen_min q Hq. gen_min dp Hdp. gen_min dq Hdq. gen_min qi Hqi.
  eexists. split; [vm_compute; reflexivity|]. split; [reflexivity|]. split; [split; reflexivity|].
  repeat (split; [eexists; (split; [vm_compute; reflexivity|assumption])|]).
  eexists; (split; [vm_compute; reflexivity|assumption]).
Qed.

Lemma rsa_generate_ok : forall seed bits, law_rsa_gen X ->
  (exists e, x_rsa_gen X bits seed = Err e /\ rsa_generate X seed bits VNone = Err e) \/
  exists q k, x_rsa_gen X bits seed = Ok q /\ rsa_consistent q /\ rsa_generate X seed bits VNone = Ok k /\ k_cls k = KRSA /\ unrestricted k /\
    stored_min k RSAKpN (rsa_n (rsa_public q)) /\ stored_min k RSAKpE (rsa_e (rsa_public q)) /\
    stored_min k RSAKpD (rsa_d q) /\ stored_min k RSAKpP (rsa_p q) /\ stored_min k RSAKpQ (rsa_q q) /\
    stored_min k RSAKpDP (rsa_dmp1 q) /\ stored_min k RSAKpDQ (rsa_dmq1 q) /\ stored_min k RSAKpQInv (rsa_iqmp q).
Proof.
  intros seed bits HL. unfold rsa_generate. destruct (x_rsa_gen X bits seed) as [q|e] eqn:E; [right|left; exists e; split; reflexivity].
  destruct (HL _ _ _ E) as [HC (H1 & H2 & H3 & H4 & H5 & H6 & H7 & H8)].
  destruct (rsa_import_cls q H1 H2 H3 H4 H5 H6 H7 H8) as (k & HE & HK). cbn [bind]. exists q, k.
  split; [reflexivity|]. split; [assumption|]. split; [assumption|]. exact HK.
Qed.

(** Import of public keys. *)
Lemma ec2_public_import_total : forall c size x y, In (c, size) ec2_curves ->
  (x < 256 ^ N.of_nat size)%N -> (y < 256 ^ N.of_nat size)%N ->
  exists k, ec2_from_ext X (Some c) x y None VNone = Ok k /\ k_cls k = KEC2 /\ unrestricted k.
Proof.
  intros c size x y HC HX HY. destruct (ec2_curve_facts _ _ HC) as (HK & HS & _).
  unfold ec2_from_ext. rewrite HS, (to_bytes_in _ _ HX), (to_bytes_in _ _ HY). cbn [bind add_params truthy].
  assert (HT : forall m, truthy (VBytes (to_be size m)) = true).
  { intros m. cbn [truthy]. pose proof (to_be_length size m) as HL. destruct (to_be size m); [|reflexivity].
    destruct size; [|discriminate]. repeat (destruct HC as [HC|HC]; [discriminate|]). destruct HC. }
  match goal with |- exists k, ?r = _ /\ _ =>
    assert (HE : r = ec2_init X (VClass (Cls FCrv c)) (VBytes (to_be size x)) (VBytes (to_be size y)) (VBytes []) (VDict []) true) by reflexivity;
    rewrite HE end.
  unfold ec2_init.
  assert (HI : common_init KEC2 (VDict []) true = Ok (Key KEC2 [(VClass KpKty, kty_of KEC2)] [])) by (vm_compute; reflexivity).
  rewrite HI. cbn [bind is_none]. unfold set_crv at 1. rewrite (ec2_curve_registered _ HK). cbn [bind c_id]. rewrite HK.
  change (veqb KtyEC2 KtyEC2) with true. cbn [bind]. change (truthy (VBytes [])) with false. rewrite !HT. cbn [negb andb bind].
  rewrite !HT. cbn [negb andb bind].
  assert (HSB : forall p m k, set_unless_empty p (VBytes (to_be size m)) k = Ok (store_set k p (VBytes (to_be size m)))).
  { intros p m k. unfold set_unless_empty. pose proof (HT m) as HTM. cbn [truthy] in HTM.
    destruct (veqb (VBytes (to_be size m)) (VBytes [])) eqn:E; [|reflexivity]. apply veqb_eq in E. injection E as E. rewrite E in HTM. discriminate. }
  rewrite HSB. cbn [bind]. rewrite HSB. cbn [bind]. eexists. split; [reflexivity|]. repeat split.
Qed.
End WithCrypto.
