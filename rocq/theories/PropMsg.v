(** Round trips: messages without recipients (C10, C12-C14, C28, C30, C56). *)
From Coq Require Import NArith ZArith Bool String.
From Coq Require Import Init.Byte List.
From Verif Require Import Bytes Value Cbor SpecData Registry Crypto Toy Keys Algorithms Headers Messages Recipients
  SpecRegistry SpecKeys SpecCrypto SpecAlg SpecHdr SpecTrip SpecMsg KeyTrip2 HdrTrip MsgTrip MsgTrip2 PropHdr.
Import ListNotations.

(** ** Messages used by the examples *)

Ltac in_list := cbn; repeat (first [left; reflexivity | right]).
Ltac unknown := let E := fresh in let c := fresh in let n := fresh in let HI := fresh in
  cbn [unknown_attr]; first [intros ? E; injection E as <-|idtac]; intros c n HI; cbn in HI;
  repeat (destruct HI as [HI|HI]; [injection HI as <- <-; discriminate|]); destruct HI.

(** Headers under mixed spellings, with unregistered ones and an ephemeral key. *)
Definition ex_protected (a : pyval) : dict :=
  [(VStr (bs "alg"), a); (VStr (bs "Critical"), VList [VInt 1]); (VClass (Cls FHdr 3), VInt 50); (VInt (-70000), VList [VInt 1; VStr (bs "x")])].
Definition ex_unprotected : dict :=
  [(VInt 4, VBytes (bs "11")); (VInt 5, VBytes (repeat x07 12)); (VStr (bs "note"), VDict [(VInt 1, VBool true)]);
   (VStr (bs "ephemeral_key"), VDict [(VInt 1, VInt 2); (VInt (-1), VInt 1); (VInt (-2), VBytes [x07]); (VInt (-3), VBytes [x08])])].
Definition ex_args (a : pyval) (t : bool) (k : key) : args :=
  Args (VDict (ex_protected a)) (VDict ex_unprotected) (VBytes (bs "hello")) (VBytes (bs "aad")) (kval k) VNone t true.
Lemma ex_given_protected : forall c n v, In (c, n) (registered FAlg) -> spells c n v -> given_headers toy (ex_protected v).
Proof.
  intros c n v HI HS. unfold given_headers, ex_protected.
  apply Forall_cons. { eapply GH_alg; [in_list|reflexivity|exact HI|exact HS]. }
  apply Forall_cons. { eapply GH_crit; [in_list|reflexivity|]. eexists. split; [reflexivity|]. split; [discriminate|]. apply Forall_cons; [left; eexists; reflexivity|apply Forall_nil]. }
  apply Forall_cons. { eapply GH_type; [in_list|reflexivity|]. left. exists 50%Z. split; [reflexivity|discriminate]. }
  apply Forall_cons. { apply GH_int; [unknown|reflexivity]. }
  apply Forall_nil.
Qed.
Lemma ex_given_unprotected : given_headers toy ex_unprotected.
Proof.
  unfold given_headers, ex_unprotected.
  apply Forall_cons. { apply (GH_bytes toy 4 (bs "KID")); [in_list|in_list|reflexivity]. }
  apply Forall_cons. { apply (GH_bytes toy 5 (bs "IV")); [in_list|in_list|reflexivity]. }
  apply Forall_cons. { apply GH_text; [unknown|reflexivity]. }
  apply Forall_cons. { eapply (GH_key toy (-1)); [in_list|in_list|reflexivity|vm_compute; reflexivity|].
    apply (ec2_built toy (VInt 1) (VBytes [x07]) (VBytes [x08]) (VBytes []) VNone true); [left; reflexivity|vm_compute; reflexivity]. }
  apply Forall_nil.
Qed.
Lemma ex_headers : forall a t k c, core_init toy (ex_args (VClass a) t k) = Ok c -> (exists n, In (a, n) (registered FAlg)) -> headers_ok toy c.
Proof.
  intros a t k c H [n HI]. eapply constructed_headers; [exact H|left; split; reflexivity
    |left; reflexivity|intros _; eapply ex_given_protected; [exact HI|reflexivity]|intros E; elim E; reflexivity|apply ex_given_unprotected].
Qed.

(** ** Messages of the constructors have legal headers *)

(** Headers given under any spelling, with legal values, become headers that can be sent;
    protected headers given as bytes are kept as received. *)
Theorem C10_constructed_headers : forall X a c dp du, core_init X a = Ok c ->
  protected_map (a_phdr a) (a_phdr_encoded a) dp -> unprotected_map (a_uhdr a) du ->
  (a_phdr_encoded a = VNone -> given_headers X dp) -> (a_phdr_encoded a <> VNone -> a_allow a = true) ->
  given_headers X du -> headers_ok X c.
Proof. intros. eapply constructed_headers; eassumption. Qed.
Print Assumptions C10_constructed_headers.

Example C10_constructed_example : exists c,
  core_init toy (ex_args (VStr (bs "es256")) true ex_ec2) = Ok c /\ headers_ok toy c /\
  length (phdr c) = 4 /\ length (uhdr c) = 4.
Proof.
  eexists. split; [vm_compute; reflexivity|]. split; [|split; reflexivity].
  eapply (C10_constructed_headers toy (ex_args (VStr (bs "es256")) true ex_ec2));
    [vm_compute; reflexivity|left; split; reflexivity
    |left; reflexivity|intros _; apply (ex_given_protected (Cls FAlg (-7)) (bs "ES256")); [in_list|reflexivity]
    |intros E; elim E; reflexivity|apply ex_given_unprotected].
Qed.

(** ** C10: Sign1 *)

(** Encode, decode and verify with the public key and the same external data; [d] is a
    detached payload or [None]. [e] is the class [decode] is called on, if any. *)
Theorem C10_sign1_round_trip : forall X seed m d b kv e, law_rsa X -> law_ecdsa X -> law_ed X ->
  headers_ok X (s1_core m) -> verifier X (s1_core m) kv -> e = None \/ e = Some 18%N ->
  sign1_encode X seed m true true d = Ok b ->
  exists m' s, decode X e true (VBytes b) = Ok (MSign1 m') /\ arrived (s1_core m) (s1_core m') /\
    payload (s1_core m') = payload (s1_core m) /\ s1_sig m' = VBytes s /\
    sign1_verify X (Sign1 (equip (s1_core m') kv (aad (s1_core m))) (s1_sig m')) d = Ok true.
Proof. exact sign1_trip. Qed.
Print Assumptions C10_sign1_round_trip.

(** The public half of the key, restricted to ES256 verification. *)
Definition ex_pub : key :=
  Key KEC2 [(VClass KpKty, KtyEC2); (VClass EC2KpCurve, VClass (Cls FCrv 1)); (VClass KpAlg, alg (-7));
            (VClass EC2KpX, VBytes [x07]); (VClass EC2KpY, VBytes [x08]); (VClass KpKeyOps, VList [VerifyOp])] [].
Lemma ex_pair : key_pair toy (-7) ex_ec2 ex_pub.
Proof. apply (KP_ecdsa toy (-7) 1 SHA256 _ _ [x07] [x07] [x08]); try discriminate; [left|..]; reflexivity. Qed.
Example C10_example : exists c b, core_init toy (ex_args (alg (-7)) true ex_ec2) = Ok c /\
  law_rsa toy /\ law_ecdsa toy /\ law_ed toy /\ headers_ok toy c /\ verifier toy c ex_pub /\
  sign1_encode toy 5 (Sign1 c (VBytes [])) true true VNone = Ok b.
Proof.
  do 2 eexists. split; [vm_compute; reflexivity|]. split; [apply toy_rsa|]. split; [apply toy_ecdsa|]. split; [apply toy_ed|].
  split; [eapply (ex_headers (Cls FAlg (-7)) true ex_ec2); [vm_compute; reflexivity|exists (bs "ES256"); in_list]|]. split; [|vm_compute; reflexivity].
  exists (-7)%Z, ex_ec2. split; [reflexivity|]. split; [reflexivity|]. split; [apply ex_pair|].
  split; [right; right; eexists; split; reflexivity|]. right; right. do 2 eexists. split; [reflexivity|]. split; left; reflexivity.
Qed.

(** ** C12: COSE_Sign *)

Theorem C12_sign_round_trip : forall X seed m d b kvs e, law_rsa X -> law_ecdsa X -> law_ed X ->
  headers_ok X (sm_core m) -> sm_signers m <> [] ->
  Forall2 (fun s kv => headers_ok X s /\ verifier X s kv) (sm_signers m) kvs -> e = None \/ e = Some 98%N ->
  sign_encode X seed m true d = Ok b ->
  exists m', decode X e true (VBytes b) = Ok (MSign m') /\ arrived (sm_core m) (sm_core m') /\
    payload (sm_core m') = payload (sm_core m) /\
    Forall2 (fun e s' => arrived (fst e) s' /\
      signer_verify X (Some (sm_core m')) (equip s' (snd e) (aad (fst e))) d = Ok true)
      (combine (sm_signers m) kvs) (sm_signers m').
Proof. exact sign_trip. Qed.
Print Assumptions C12_sign_round_trip.

(** Two signers, with ECDSA and EdDSA, whose headers differ in the [alg] encoding. *)
Definition ex_okp : key :=
  Key KOKP [(VClass KpKty, KtyOKP); (VClass OKPKpCurve, VClass (Cls FCrv 6)); (VClass OKPKpX, VBytes [x09]); (VClass OKPKpD, VBytes [x09])] [].
Example C12_example : exists c s1 s2 b,
  core_init toy (Args (VDict [(KID, VBytes [x01])]) VNone (VBytes (bs "hi")) (VBytes []) VNone VNone true true) = Ok c /\
  core_init toy (ex_args (alg (-7)) true ex_ec2) = Ok s1 /\ core_init toy (ex_args (alg (-8)) false ex_okp) = Ok s2 /\
  headers_ok toy c /\
  Forall2 (fun s kv => headers_ok toy s /\ verifier toy s kv) [s1; s2] [ex_pub; ex_okp] /\
  sign_encode toy 5 (SignMsg c [s1; s2]) true VNone = Ok b.
Proof.
  do 4 eexists. split; [vm_compute; reflexivity|]. split; [vm_compute; reflexivity|]. split; [vm_compute; reflexivity|].
  split; [|split; [|vm_compute; reflexivity]].
  - split; [|apply sendable_nil]. split; [reflexivity|]. apply Forall_cons; [apply (HO_bytes toy 4); in_list|apply Forall_nil].
  - apply Forall2_cons; [|apply Forall2_cons; [|apply Forall2_nil]].
    + split; [eapply (ex_headers (Cls FAlg (-7)) true ex_ec2); [vm_compute; reflexivity|exists (bs "ES256"); in_list]|].
      exists (-7)%Z, ex_ec2. split; [reflexivity|]. split; [reflexivity|]. split; [apply ex_pair|].
      split; [right; right; eexists; split; reflexivity|]. right; right. do 2 eexists. split; [reflexivity|]. split; left; reflexivity.
    + split; [eapply (ex_headers (Cls FAlg (-8)) false ex_okp); [vm_compute; reflexivity|exists (bs "EDDSA"); in_list]|].
      exists (-8)%Z, ex_okp. split; [reflexivity|]. split; [reflexivity|].
      split; [apply (KP_eddsa toy 6 _ _ [x09] [x09]); try reflexivity; left; reflexivity|]. split; [left|left]; reflexivity.
Qed.

(** ** C13: Encrypt0 *)

Theorem C13_enc0_round_trip : forall X c b kr e, law_gcm X -> law_ccm X -> headers_ok X c -> shares c (Cls FOps 4) kr ->
  e = None \/ e = Some 16%N -> enc0_encode X c true true = Ok b ->
  exists c' pl, decode X e true (VBytes b) = Ok (MEnc0 c') /\ arrived c c' /\
    payload c = Some pl /\ enc0_decrypt X (equip c' kr (aad c)) = Ok pl.
Proof. exact enc0_trip. Qed.
Print Assumptions C13_enc0_round_trip.

Example C13_example : exists c b, core_init toy (ex_args (alg 1) true ex_sym) = Ok c /\
  law_gcm toy /\ law_ccm toy /\ headers_ok toy c /\ shares c (Cls FOps 4) ex_sym /\ enc0_encode toy c true true = Ok b.
Proof.
  do 2 eexists. split; [vm_compute; reflexivity|]. split; [apply toy_gcm|]. split; [apply toy_ccm|].
  split; [eapply (ex_headers (Cls FAlg 1) true ex_sym); [vm_compute; reflexivity|exists (bs "A128GCM"); in_list]|]. split; [|vm_compute; reflexivity].
  exists 1%Z, ex_sym, (repeat x2a 16). repeat (split; [reflexivity|]). split; left; reflexivity.
Qed.

(** ** C14: MAC0 *)

Theorem C14_mac0_round_trip : forall X m b kr e, headers_ok X (m0_core m) -> shares (m0_core m) (Cls FOps 10) kr ->
  e = None \/ e = Some 17%N -> snd (mac0_encode X m true true) = Ok b ->
  exists m', decode X e true (VBytes b) = Ok (MMac0 m') /\ arrived (m0_core m) (m0_core m') /\
    payload (m0_core m') = payload (m0_core m) /\
    mac0_verify_tag X (Mac0 (equip (m0_core m') kr (aad (m0_core m))) (m0_tag m')) = Ok true.
Proof. exact mac0_trip. Qed.
Print Assumptions C14_mac0_round_trip.

Example C14_example : exists c b, core_init toy (ex_args (alg 5) false ex_sym) = Ok c /\
  headers_ok toy c /\ shares c (Cls FOps 10) ex_sym /\ snd (mac0_encode toy (Mac0 c (VBytes [])) true true) = Ok b.
Proof.
  do 2 eexists. split; [vm_compute; reflexivity|].
  split; [eapply (ex_headers (Cls FAlg 5) false ex_sym); [vm_compute; reflexivity|exists (bs "HMAC_256"); in_list]|]. split; [|vm_compute; reflexivity].
  exists 5%Z, ex_sym, (repeat x2a 16). repeat (split; [reflexivity|]). split; left; reflexivity.
Qed.

(** ** C28: unknown parameters survive *)

(** Whatever kind of message: an unregistered header arrives, in the same map, unchanged. *)
Theorem C28_survives : forall X c c' k, headers_ok X c -> delivered X c c' ->
  unknown_attr FHdr k -> (exists z, k = VInt z) \/ (exists u, k = VStr u) ->
  dget (phdr c') k = dget (phdr c) k /\ dget (uhdr c') k = dget (uhdr c) k.
Proof.
  intros X c c' k HO HD HU HK. apply delivered_arrived in HD; [|assumption]. apply arrived_value; [assumption|..];
  destruct HK as [[z ->]|[u ->]]; reflexivity.
Qed.
Print Assumptions C28_survives.

Example C28_survives_example : exists c c', core_init toy (ex_args (alg (-7)) true ex_ec2) = Ok c /\
  headers_ok toy c /\ delivered toy c c' /\ dget (phdr c') (VInt (-70000)) = Some (VList [VInt 1; VStr (bs "x")]).
Proof.
  assert (HC : exists c, core_init toy (ex_args (alg (-7)) true ex_ec2) = Ok c) by (eexists; vm_compute; reflexivity).
  destruct HC as [c HC]. exists c.
  assert (HO : headers_ok toy c) by (eapply ex_headers; [exact HC|exists (bs "ES256"); in_list]).
  assert (HB : exists b, sign1_encode toy 5 (Sign1 c (VBytes [])) true true VNone = Ok b).
  { vm_compute in HC. injection HC as <-. eexists. vm_compute. reflexivity. }
  destruct HB as [b HB]. pose proof ex_pair as HP.
  destruct (sign1_trip toy 5 (Sign1 c (VBytes [])) VNone b ex_pub None toy_rsa toy_ecdsa toy_ed HO) as (m' & s & HD & HA & _); auto.
  { vm_compute in HC. injection HC as <-. exists (-7)%Z, ex_ec2. split; [reflexivity|]. split; [reflexivity|]. split; [apply ex_pair|].
    split; [right; right; eexists; split; reflexivity|]. right; right. do 2 eexists. split; [reflexivity|]. split; left; reflexivity. }
  assert (HDl : delivered toy c (s1_core m')).
  { exists b, None, (MSign1 m'). split; [|split; [exact HD|reflexivity]].
    apply (S_sign1 toy 5 (Sign1 c (VBytes [])) true VNone); [exact HB|eexists; reflexivity]. }
  exists (s1_core m'). split; [exact HC|]. split; [exact HO|]. split; [exact HDl|].
  destruct (C28_survives toy c _ (VInt (-70000)) HO HDl) as [-> _]; [unknown|left; eexists; reflexivity|].
  vm_compute in HC. injection HC as <-. reflexivity.
Qed.

(** ** C30: algorithms on the wire *)

(** The protected and the unprotected map carry the name or the id of the algorithm. *)
Theorem C30_protected_algorithm : forall X c p a n, phdr_raw c = None -> sendable X (phdr c) -> phdr_encoded c = Ok p ->
  dget (phdr c) Algorithm = Some (VClass a) -> In (a, n) (registered FAlg) ->
  exists d, loads_bytes p = Ok (VDict d) /\ dget d (VInt 1) = Some (if tstr c then VStr n else VInt (c_id a)).
Proof. exact alg_on_wire. Qed.
Print Assumptions C30_protected_algorithm.

Theorem C30_unprotected_algorithm : forall X c b a n, headers_ok X c -> sent X c b ->
  dget (uhdr c) Algorithm = Some (VClass a) -> In (a, n) (registered FAlg) ->
  exists t p d rest, loads_bytes b = Ok (VTag t (VList (VBytes p :: VDict d :: rest))) /\
    dget d (VInt 1) = Some (if tstr c then VStr n else VInt (c_id a)).
Proof. exact unprotected_alg_on_wire. Qed.
Print Assumptions C30_unprotected_algorithm.

(** Either way the receiver gets the same headers: all of them, and so the algorithm. *)
Theorem C30_same_headers : forall X c c', headers_ok X c -> delivered X c c' ->
  same_headers (phdr c) (phdr c') /\ same_headers (uhdr c) (uhdr c') /\
  dget (phdr c') Algorithm = dget (phdr c) Algorithm /\ dget (uhdr c') Algorithm = dget (uhdr c) Algorithm.
Proof.
  intros X c c' HO HD. apply delivered_arrived in HD; [|assumption].
  destruct (arrived_value _ _ Algorithm HD eq_refl eq_refl) as [E1 E2]. destruct HD as (H1 & H2 & _). auto.
Qed.
Print Assumptions C30_same_headers.

Example C30_example :
  let c t := Core [(Algorithm, alg (-7))] None [] [] t None [] None in
  phdr_encoded (c true) = Ok ([xa1; x01; x65] ++ bs "ES256") /\ phdr_encoded (c false) = Ok [xa1; x01; x26] /\
  (forall t, sendable toy (phdr (c t))).
Proof.
  cbv zeta. split; [reflexivity|]. split; [reflexivity|]. intros t. split; [reflexivity|].
  apply Forall_cons; [|apply Forall_nil]. apply HO_alg. exists (Cls FAlg (-7)), (bs "ES256"). split; [reflexivity|in_list].
Qed.

(** ** C56: encodings without cryptography *)

Theorem C56_enc0_partial : forall X c b e, headers_ok X c -> e = None \/ e = Some 16%N -> enc0_encode X c true false = Ok b ->
  exists c', decode X e true (VBytes b) = Ok (MEnc0 c') /\ arrived c c' /\ payload c' = payload c.
Proof. exact enc0_plain_trip. Qed.
Print Assumptions C56_enc0_partial.

Theorem C56_enc_partial : forall X n m b e, headers_ok X (e_core m) -> e_rcpts m = [] -> e = None \/ e = Some 96%N ->
  snd (encm_encode X n m true false) = Ok b ->
  exists m', decode X e true (VBytes b) = Ok (MEnc m') /\ arrived (e_core m) (e_core m') /\
    payload (e_core m') = payload (e_core m) /\ e_rcpts m' = [].
Proof. exact encm_plain_trip. Qed.
Print Assumptions C56_enc_partial.

(** [sign=False] on a message that already has a signature. *)
Theorem C56_existing_signature_partial : forall X seed m d b s e, headers_ok X (s1_core m) -> s1_sig m = VBytes s -> s <> [] ->
  e = None \/ e = Some 18%N -> sign1_encode X seed m true false d = Ok b ->
  exists c', decode X e true (VBytes b) = Ok (MSign1 (Sign1 c' (VBytes s))) /\ arrived (s1_core m) c' /\
    payload c' = payload (s1_core m).
Proof. exact sign1_plain_trip. Qed.
Print Assumptions C56_existing_signature_partial.

(** The others leave out the last field, and never decode. *)
Theorem C56_unsigned_refuted : forall X seed m d b e, headers_ok X (s1_core m) -> s1_sig m = VBytes [] ->
  sign1_encode X seed m true false d = Ok b -> decode X e true (VBytes b) = Err IndexError.
Proof. exact sign1_unsigned. Qed.
Print Assumptions C56_unsigned_refuted.

Theorem C56_mac0_refuted : forall X m b e, headers_ok X (m0_core m) ->
  snd (mac0_encode X m true false) = Ok b -> decode X e true (VBytes b) = Err IndexError.
Proof. exact mac0_unmaced. Qed.
Print Assumptions C56_mac0_refuted.

Theorem C56_no_signers_refuted : forall X seed m d b e, headers_ok X (sm_core m) -> sm_signers m = [] ->
  sign_encode X seed m true d = Ok b -> decode X e true (VBytes b) = Err IndexError.
Proof. exact sign_no_signers. Qed.
Print Assumptions C56_no_signers_refuted.

Theorem C56_mac_refuted : forall X n m b e, headers_ok X (mm_core m) -> mm_rcpts m = Some [] ->
  snd (macm_encode X n m true false) = Ok b -> decode X e true (VBytes b) = Err IndexError.
Proof. exact macm_unmaced. Qed.
Print Assumptions C56_mac_refuted.

Example C56_example : exists c, core_init toy (ex_args (alg (-7)) true ex_ec2) = Ok c /\ headers_ok toy c /\
  is_ok (enc0_encode toy c true false) = true /\ is_ok (snd (encm_encode toy 0 (EncMsg c []) true false)) = true /\
  is_ok (sign1_encode toy 0 (Sign1 c (VBytes [x01])) true false VNone) = true /\
  is_ok (sign1_encode toy 0 (Sign1 c (VBytes [])) true false VNone) = true /\
  is_ok (snd (mac0_encode toy (Mac0 c (VBytes [])) true false)) = true /\ is_ok (sign_encode toy 0 (SignMsg c []) true VNone) = true /\
  is_ok (snd (macm_encode toy 0 (MacMsg c (VBytes []) (Some [])) true false)) = true.
Proof.
  eexists. split; [vm_compute; reflexivity|].
  split; [eapply (ex_headers (Cls FAlg (-7)) true ex_ec2); [vm_compute; reflexivity|exists (bs "ES256"); in_list]|]. vm_compute. repeat split.
Qed.
