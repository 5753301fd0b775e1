(** C76: generated keys; C42: imported keys.
    Vocabulary: SpecGen.v, SpecKeys.v, SpecMsg.v, SpecCrypto.v. *)
From Coq Require Import NArith ZArith Bool String Lia.
From Coq Require Import Init.Byte List.
From Verif Require Import Bytes BytesProofs Value ValueProofs Registry RegistryProofs Crypto SpecCrypto Toy Keys
  SpecRegistry SpecData SpecKeys SpecAlg SpecHdr SpecTrip SpecMsg SpecGen GenProofs.
Import ListNotations.

(** ** C42: import of OKP keys and of EC2 keys never fails and loses nothing *)

Theorem C42_okp_import : forall X c pub priv, In c okp_curves -> pub <> [] ->
  exists k, from_ext X (ExtOKP c pub priv) VNone = Ok k /\ k_cls k = KOKP /\ unrestricted k /\
    param k OKPKpCurve = Some (VClass (Cls FCrv c)) /\ param k OKPKpX = Some (VBytes pub) /\
    param k OKPKpD = match priv with Some (b :: r) => Some (VBytes (b :: r)) | _ => None end.
Proof. intros X. exact okp_import. Qed.
Print Assumptions C42_okp_import.

Theorem C42_ec2_import_succeeds : forall X c size x y priv, In (c, size) ec2_curves ->
  (x < 256 ^ N.of_nat size)%N -> (y < 256 ^ N.of_nat size)%N ->
  match priv with Some d => (d < 256 ^ N.of_nat size)%N /\ x_ec_pub X c d = Ok (x, y) | None => True end ->
  exists k, from_ext X (ExtEC (Some c) x y priv) VNone = Ok k /\ k_cls k = KEC2 /\ unrestricted k.
Proof.
  intros X c size x y [d|] HC HX HY HP.
  - destruct HP as [HD HP]. exact (ec2_import_total X c size x y d HC HP HX HY HD).
  - exact (ec2_public_import_total X c size x y HC HX HY).
Qed.
Print Assumptions C42_ec2_import_succeeds.

Example C42_import_example :
  (exists k, from_ext toy (ExtOKP 6 [x01] (Some [x02])) VNone = Ok k /\ param k OKPKpD = Some (VBytes [x02])) /\
  (exists k, from_ext toy (ExtEC (Some 8%Z) 7 8 (Some 7%N)) VNone = Ok k) /\
  (exists k, from_ext toy (ExtEC (Some 3%Z) 7 8 None) VNone = Ok k).
Proof.
  split; [eexists; (split; [vm_compute; reflexivity|]); vm_compute; reflexivity|].
  split; eexists; vm_compute; reflexivity.
Qed.

(** ** C76: generated keys *)

(** Symmetric keys: exactly the random bytes asked for, or ValueError. *)
Theorem C76_symmetric : forall X seed len, law_urandom_len X ->
  (In len [16; 24; 32]%Z ->
    exists k, sym_generate X seed len VNone = Ok k /\ k_cls k = KSym /\ param k KpKty = Some (kty_of KSym) /\ unrestricted k /\
      secret k (x_urandom X seed (Z.to_nat len)) /\ length (x_urandom X seed (Z.to_nat len)) = Z.to_nat len) /\
  (~ In len [16; 24; 32]%Z -> forall opt, sym_generate X seed len opt = Err ValueError).
Proof.
  intros X seed len HL. split; intros HI.
  - exact (sym_generate_ok X seed len HL HI).
  - intros opt. exact (sym_generate_bad X seed len opt HI).
Qed.
Print Assumptions C76_symmetric.

Lemma toy_urandom : law_urandom_len toy.
Proof. intros s n. cbn [x_urandom toy]. apply mix_length. Qed.

Example C76_symmetric_example :
  exists k b, sym_generate toy 5 24 VNone = Ok k /\ secret k b /\ length b = 24.
Proof.
  destruct (C76_symmetric toy 5 24 toy_urandom) as [H _]. destruct H as (k & H1 & _ & _ & _ & H2 & H3); [cbn [In]; auto|].
  exists k. eexists. split; [exact H1|]. split; [exact H2|exact H3].
Qed.

(** EC2 keys: the private value of the generator and its public point, in the size of the
    curve, whichever spelling of the curve is given. *)
Theorem C76_ec2 : forall X seed c size n crv, law_ec_gen X -> In (c, size) ec2_curves ->
  In (Cls FCrv c, n) (registered FCrv) -> spells (Cls FCrv c) n crv ->
  exists k x y, ec2_generate X seed crv VNone = Ok k /\ k_cls k = KEC2 /\ unrestricted k /\
    param k EC2KpCurve = Some (VClass (Cls FCrv c)) /\ x_ec_pub X c (x_ec_gen X c seed) = Ok (x, y) /\
    stored_sized k EC2KpX size x /\ stored_sized k EC2KpY size y /\ stored_sized k EC2KpD size (x_ec_gen X c seed).
Proof. exact ec2_generate_ok. Qed.
Print Assumptions C76_ec2.

Theorem C76_okp : forall X seed c n crv, law_okp_gen X -> In c okp_curves ->
  In (Cls FCrv c, n) (registered FCrv) -> spells (Cls FCrv c) n crv ->
  exists k, okp_generate X seed crv VNone = Ok k /\ k_cls k = KOKP /\ unrestricted k /\
    param k OKPKpCurve = Some (VClass (Cls FCrv c)) /\
    param k OKPKpD = Some (VBytes (x_okp_gen X c seed)) /\
    param k OKPKpX = Some (VBytes (x_okp_pub X c (x_okp_gen X c seed))).
Proof. exact okp_generate_ok. Qed.
Print Assumptions C76_okp.

(** RSA keys: all the numbers of the generated key; an error only if the generator has one. *)
Theorem C76_rsa : forall X seed bits, law_rsa_gen X ->
  (exists e, x_rsa_gen X bits seed = Err e /\ rsa_generate X seed bits VNone = Err e) \/
  exists q k, x_rsa_gen X bits seed = Ok q /\ rsa_consistent q /\ rsa_generate X seed bits VNone = Ok k /\
    k_cls k = KRSA /\ unrestricted k /\
    stored_min k RSAKpN (rsa_n (rsa_public q)) /\ stored_min k RSAKpE (rsa_e (rsa_public q)) /\
    stored_min k RSAKpD (rsa_d q) /\ stored_min k RSAKpP (rsa_p q) /\ stored_min k RSAKpQ (rsa_q q) /\
    stored_min k RSAKpDP (rsa_dmp1 q) /\ stored_min k RSAKpDQ (rsa_dmq1 q) /\ stored_min k RSAKpQInv (rsa_iqmp q).
Proof. exact rsa_generate_ok. Qed.
Print Assumptions C76_rsa.

(** A curve of another key type, or no curve at all, is refused. *)
Theorem C76_other_curve : forall X seed c n crv, In (Cls FCrv c, n) (registered FCrv) -> spells (Cls FCrv c) n crv ->
  ((forall size, ~ In (c, size) ec2_curves) -> ec2_generate X seed crv VNone = Err CoseUnsupportedCurve) /\
  (~ In c okp_curves -> okp_generate X seed crv VNone = Err CoseUnsupportedCurve).
Proof. exact generate_other_curve. Qed.
Print Assumptions C76_other_curve.

Theorem C76_unknown_curve : forall X seed crv opt, unknown_attr FCrv crv ->
  ec2_generate X seed crv opt = Err CoseException /\ okp_generate X seed crv opt = Err CoseException.
Proof. exact generate_unknown_curve. Qed.
Print Assumptions C76_unknown_curve.

(** A generated key signs and verifies: it is its own public key for every signature
    algorithm of its curve, and nothing in it forbids the use. *)
Theorem C76_signs : forall X, law_ec_gen X -> law_okp_gen X -> law_rsa_gen X ->
  (forall z c h seed n crv k, In (z, c, h) ecdsa_curves -> In (Cls FCrv c, n) (registered FCrv) -> spells (Cls FCrv c) n crv ->
     ec2_generate X seed crv VNone = Ok k -> key_pair X z k k) /\
  (forall c seed n crv k, In c [6; 7]%Z -> In (Cls FCrv c, n) (registered FCrv) -> spells (Cls FCrv c) n crv ->
     okp_generate X seed crv VNone = Ok k -> key_pair X (-8) k k) /\
  (forall z bits seed k, In z rsa_signatures -> rsa_generate X seed bits VNone = Ok k -> key_pair X z k k).
Proof.
  intros X HE HO HR. split; [|split].
  - intros z c h seed n crv k HZ HI HS HK.
    assert (HC : exists size, In (c, S size) ec2_curves).
    { repeat (destruct HZ as [HZ|HZ]; [injection HZ as <- <- <-; eexists; cbn [ec2_curves In]; auto|]). destruct HZ. }
    destruct HC as [size HC].
    destruct (ec2_generate_ok X seed c _ n crv HE HC HI HS) as (k' & x & y & HK' & H1 & _ & H2 & H3 & (bx & X1 & X2 & X3) & (by_ & Y1 & Y2 & Y3) & (bd & D1 & D2 & D3)).
    rewrite HK in HK'. injection HK' as <-.
    apply (KP_ecdsa X z c h k k bd bx by_ HZ H1 H1 D1 X1 Y1).
    + intros ->. discriminate.
    + intros ->. discriminate.
    + rewrite D3, X3, Y3. exact H3.
  - intros c seed n crv k HZ HI HS HK.
    assert (HC : In c okp_curves) by (repeat (destruct HZ as [<-|HZ]; [cbn [okp_curves In]; auto|]); destruct HZ).
    destruct (okp_generate_ok X seed c n crv HO HC HI HS) as (k' & HK' & H1 & _ & H2 & H3 & H4).
    rewrite HK in HK'. injection HK' as <-.
    exact (KP_eddsa X c k k _ _ HZ H1 H1 H2 H2 H3 H4 eq_refl).
  - intros z bits seed k HZ HK.
    destruct (rsa_generate_ok X seed bits HR) as [(e & _ & HE')|(q & k' & _ & HC & HK' & H1 & _ & HN & HE' & HD & HP & HQ & HDP & HDQ & HI)]; [congruence|].
    rewrite HK in HK'. injection HK' as <-.
    assert (HX : forall p v, stored_min k p v -> rsa_number k p v) by (intros p v (b & HB & HM); exists b; split; [exact HB|apply HM]).
    assert (HPu : rsa_public_key k (rsa_public q)) by (split; [exact H1|split; apply HX; assumption]).
    apply (KP_rsa X z k k q HZ); [|exact HC|exact HPu]. split; [exact HPu|]. repeat split; apply HX; assumption.
Qed.
Print Assumptions C76_signs.

(** The laws hold of the toy primitives; the curve may be given by class, id or name. *)
Example C76_example :
  law_ec_gen toy /\ law_okp_gen toy /\ law_rsa_gen toy /\
  (exists k, ec2_generate toy 7 (VInt 1) VNone = Ok k /\ key_pair toy (-7) k k) /\
  (exists k, ec2_generate toy 7 (VStr (bs "p_521")) VNone = Ok k /\ key_pair toy (-36) k k) /\
  (exists k, okp_generate toy 7 (VClass (Cls FCrv 6)) VNone = Ok k /\ key_pair toy (-8) k k) /\
  ec2_generate toy 7 (VClass (Cls FCrv 6)) VNone = Err CoseUnsupportedCurve /\
  okp_generate toy 7 (VStr (bs "P-256")) VNone = Err CoseException.
Proof.
  split; [exact toy_ec_gen|]. split; [exact toy_okp_gen|]. split; [exact toy_rsa_gen|].
  destruct (C76_signs toy toy_ec_gen toy_okp_gen toy_rsa_gen) as (H1 & H2 & _).
  assert (E1 : exists k, ec2_generate toy 7 (VInt 1) VNone = Ok k) by (eexists; vm_compute; reflexivity).
  assert (E2 : exists k, ec2_generate toy 7 (VStr (bs "p_521")) VNone = Ok k) by (eexists; vm_compute; reflexivity).
  assert (E3 : exists k, okp_generate toy 7 (VClass (Cls FCrv 6)) VNone = Ok k) by (eexists; vm_compute; reflexivity).
  destruct E1 as [k1 E1]. destruct E2 as [k2 E2]. destruct E3 as [k3 E3].
  split; [|split; [|split; [|split; vm_compute; reflexivity]]].
  - exists k1. split; [exact E1|]. apply (H1 (-7)%Z 1%Z SHA256 7%N (bs "P_256") (VInt 1) k1); [left; reflexivity|vm_compute; tauto|reflexivity|exact E1].
  - exists k2. split; [exact E2|]. apply (H1 (-36)%Z 3%Z SHA512 7%N (bs "P_521") (VStr (bs "p_521")) k2);
      [do 2 right; left; reflexivity|vm_compute; tauto|vm_compute; reflexivity|exact E2].
  - exists k3. split; [exact E3|]. apply (H2 6%Z 7%N (bs "ED25519") (VClass (Cls FCrv 6)) k3); [left; reflexivity|vm_compute; tauto|reflexivity|exact E3].
Qed.
