(** Encoding a message again (C128). *)
From Coq Require Import NArith ZArith Bool String.
From Coq Require Import Init.Byte List.
From Verif Require Import Bytes Value ValueProofs Cbor Registry Crypto Toy Keys Algorithms Headers Messages Recipients
  SpecCrypto SpecAlg SpecMsg SpecRcpt SpecRcptTrip AcceptProofs SpecAgain AgainProofs AgainProofs2 PropHdr PropMsg PropRcpt PropRcptTrip.
Import ListNotations.
Local Open Scope result_scope.
Local Open Scope list_scope.

(** ** COSE_Encrypt *)

Theorem C128_encrypt : forall X n m t e n1 m1 b, law_urandom_len X -> Forall no_oaep (e_rcpts m) ->
  encm_encode X n m t e = ((n1, m1), Ok b) ->
  forall n', exists n2, encm_encode X n' m1 t e = ((n2, m1), Ok b).
Proof. exact encm_encode_again. Qed.
Print Assumptions C128_encrypt.

(** The tag may be left out or added: what is encoded is the same, and nothing is stored. *)
Theorem C128_encrypt_tag : forall X n m t t' n1 m1 b, law_urandom_len X -> Forall no_oaep (e_rcpts m) ->
  encm_encode X n m t true = ((n1, m1), Ok b) ->
  forall n' s x, encm_encode X n' m1 t' true = (s, x) -> snd s = m1.
Proof.
  intros X n m t t' n1 m1 b LU HO H n' s x H1. destruct (encm_encode_again X n m t true n1 m1 b LU HO H n') as (n2 & H2).
  unfold encm_encode in H1, H2. destruct (phdr_encoded (e_core m1)) as [p|]; [|discriminate].
  destruct (encm_encrypt X n' m1) as [[n3 m3] [y|y]]; cbn [bind] in H1, H2; [|discriminate].
  destruct (e_rcpts m3) as [|r rs]; [injection H1 as <- _; injection H2 as _ <- _; reflexivity|].
  destruct (get_attr (e_core m3) Algorithm); [|discriminate].
  destruct (rcpts_encode X n3 (r :: rs)) as [[n4 rs4] [vs|]]; [|discriminate]. injection H1 as <- _. injection H2 as _ <- _. reflexivity.
Qed.
Print Assumptions C128_encrypt_tag.

(** ** COSE_Mac *)

Theorem C128_mac : forall X n m t e n1 m1 b, (forall rs, mm_rcpts m = Some rs -> Forall no_oaep rs) ->
  macm_encode X n m t e = ((n1, m1), Ok b) ->
  forall n', exists n2, macm_encode X n' m1 t e = ((n2, m1), Ok b).
Proof.
  intros X n m t e n1 m1 b HO H n'. unfold macm_encode in H. destruct (phdr_encoded (mm_core m)) as [p|] eqn:EP; [|discriminate].
  assert (HS : exists n2 m2 tl, phdr_encoded (mm_core m2) = Ok p /\ (forall rs, mm_rcpts m2 = Some rs -> Forall no_oaep rs) /\
    (forall rs rs2, mm_rcpts m2 = Some rs -> Forall2 same_but rs rs2 -> 
      (if e then let '(s, x) := macm_compute_tag X n' (MacMsg (mm_core m2) (mm_tag m2) (Some rs2)) in (s, bind x (fun b => Ok [VBytes b]))
       else ((n', MacMsg (mm_core m2) (mm_tag m2) (Some rs2)), Ok [])) = ((n', MacMsg (mm_core m2) (mm_tag m2) (Some rs2)), Ok tl)) /\
    match mm_rcpts m2 with
    | None => ((n2, m2), Err TypeError)
    | Some [] => ((n2, m2), emit (mm_core m2) 97 t ([VBytes p; VDict (uhdr (mm_core m2)); vopt (payload (mm_core m2))] ++ tl))
    | Some rs =>
      match get_attr (mm_core m2) Algorithm with
      | Err e => ((n2, m2), Err e)
      | Ok _ =>
        match rcpts_encode X n2 rs with
        | ((n3, rs'), Err e) => ((n3, MacMsg (mm_core m2) (mm_tag m2) (Some rs')), Err e)
        | ((n3, rs'), Ok vs) => ((n3, MacMsg (mm_core m2) (mm_tag m2) (Some rs')),
            emit (mm_core m2) 97 t (([VBytes p; VDict (uhdr (mm_core m2)); vopt (payload (mm_core m2))] ++ tl) ++ [VList vs]))
        end
      end
    end = ((n1, m1), Ok b)).
  { destruct e; [|exists n, m, []; split; [exact EP|]; split; [exact HO|]; split; [reflexivity|exact H]].
    destruct (macm_compute_tag X n m) as [[n2 m2] [x|x]] eqn:EE; cbn [bind] in H; [|discriminate].
    exists n2, m2, [VBytes x]. unfold macm_compute_tag in EE. destruct m as [c tg [rs|]]; cbn [mm_core mm_rcpts mm_tag] in *;
      destruct (get_attr c Algorithm) as [a|] eqn:EA; try discriminate EE.
    destruct (verify_recipients rs) as [u|] eqn:EV; [|discriminate]. destruct (has_class RDirect rs) eqn:ED.
    { unfold mac_super_compute in EE. cbn [mm_core mm_rcpts] in EE. destruct (mac_compute X "MAC" c) as [y|] eqn:EM; [|discriminate].
      apply pair_equal_spec in EE as [E1 E2]. injection E2 as ->. apply pair_equal_spec in E1 as [_ <-]. cbn [mm_core mm_rcpts mm_tag] in *.
      split; [exact EP|]. split; [exact HO|]. split; [|exact H]. intros rs0 rs2 E0 HS. injection E0 as <-.
      destruct (class_eqs _ _ (same_classes _ _ HS)) as [HC HV]. unfold macm_compute_tag, mac_super_compute. cbn [mm_core mm_rcpts mm_tag].
      rewrite EA, HV, EV, HC, ED, EM. reflexivity. }
    destruct (has_class RAgree rs) eqn:EG.
    { destruct rs as [|r rs]; [discriminate|]. destruct (compute_cek X r a false) as [k|] eqn:EK; [|discriminate].
      unfold mac_super_compute in EE. cbn [mm_core mm_rcpts] in EE. destruct (mac_compute X "MAC" (with_key c k)) as [y|] eqn:EM; [|discriminate].
      apply pair_equal_spec in EE as [E1 E2]. injection E2 as ->. apply pair_equal_spec in E1 as [_ <-]. cbn [mm_core mm_rcpts mm_tag] in *.
      split; [exact EP|]. split; [exact HO|]. split; [|exact H]. intros rs0 rs2 E0 HS. injection E0 as <-.
      destruct (class_eqs _ _ (same_classes _ _ HS)) as [HC HV]. unfold macm_compute_tag, mac_super_compute. cbn [mm_core mm_rcpts mm_tag].
      change (get_attr (with_key c k) Algorithm) with (get_attr c Algorithm). rewrite EA, HV, EV, !HC, ED, EG.
      inversion HS as [|? r2 ? rs2' HS1 HS2]; subst. rewrite (cek_again X _ _ _ _ EK HS1), with_key_twice. cbn [mm_core mm_rcpts mm_tag]. rewrite EM.
      reflexivity. }
    destruct (_ || _); [|discriminate]. destruct (get_key_length a); [|discriminate]. destruct (cek_loop _ _ _ _) as [[n3 rs'] [kb|]]; discriminate. }
  clear H. destruct HS as (n2 & m2 & tl & E1 & E2 & E3 & H). destruct m2 as [c2 t2 o2]. cbn [mm_core mm_rcpts mm_tag] in *.
  destruct o2 as [rs2|]; [|discriminate]. specialize (E2 rs2 eq_refl). specialize (E3 rs2). destruct rs2 as [|r rs2].
  - apply pair_equal_spec in H as [H1 H]. apply pair_equal_spec in H1 as [_ <-]. unfold macm_encode. cbn [mm_core mm_rcpts]. rewrite E1.
    rewrite (E3 [] eq_refl (Forall2_nil _)). cbn [mm_core mm_rcpts]. rewrite H. exists n'. reflexivity.
  - destruct (get_attr c2 Algorithm) as [a|] eqn:EA; [|discriminate]. destruct (rcpts_encode X n2 (r :: rs2)) as [[n3 rs'] [vs|]] eqn:ER; [|discriminate].
    apply rcpts_again in ER as [A1 A2]; [|exact E2]. apply pair_equal_spec in H as [H1 H]. apply pair_equal_spec in H1 as [_ <-].
    unfold macm_encode. cbn [mm_core mm_rcpts]. rewrite E1, (E3 rs' eq_refl A2). cbn [mm_core mm_rcpts].
    destruct rs' as [|r' rs']; [inversion A2|]. rewrite EA. destruct (A1 n') as (n5 & ->). rewrite H. exists n5. reflexivity.
Qed.
Print Assumptions C128_mac.

(** ** COSE_Mac0 *)

Theorem C128_mac0 : forall X m t e m1 b, mac0_encode X m t e = (m1, Ok b) -> mac0_encode X m1 t e = (m1, Ok b).
Proof.
  intros X [c tg] t e m1 b H. unfold mac0_encode, mac0_compute_tag in *. cbn [m0_core m0_tag] in *.
  destruct (phdr_encoded c) as [p|] eqn:EP; [|discriminate]. destruct e.
  - destruct (mac_compute X "MAC0" c) as [y|] eqn:EM; [|discriminate]. apply pair_equal_spec in H as [<- H]. cbn [m0_core]. rewrite EP, EM, H. reflexivity.
  - apply pair_equal_spec in H as [<- H]. cbn [m0_core]. rewrite EP, H. reflexivity.
Qed.
Print Assumptions C128_mac0.

(** ** COSE_Sign1 and COSE_Sign: encoding stores nothing, and the bytes do not depend on the
    random numbers drawn. *)

Lemma sign_seed : forall X s s' a k d, law_pkcs1 X -> (forall z, In z pss_algs -> a <> alg z) -> alg_sign X s a k d = alg_sign X s' a k d.
Proof.
  intros X s s' a k d LP H. unfold alg_sign. destruct (alg_kind a) as [[]|] eqn:E; try reflexivity.
  destruct pad; [|destruct (rsa_private_numbers k); [apply LP|reflexivity]].
  exfalso. apply kind_in in E as (z & -> & E). apply (H z); [|reflexivity]. unfold alg_defs in E. cbn [In] in E.
  repeat (destruct E as [E|E]; [try discriminate E; injection E as <- _; cbn; tauto|]). destruct E.
Qed.

Lemma signature_seed : forall X s s' c st, law_pkcs1 X -> ~ uses pss_algs c -> compute_signature X s c st = compute_signature X s' c st.
Proof.
  intros X s s' c st LP HU. unfold compute_signature. destruct (get_attr c Algorithm) as [a|] eqn:EA; [|reflexivity]. cbn [bind].
  destruct (key_verification c a SignOp) as [k|]; [|reflexivity]. cbn [bind]. destruct (has_sign a); [|reflexivity]. cbn [bind].
  destruct st as [d|]; [|reflexivity]. cbn [bind]. apply sign_seed; [exact LP|]. intros z HZ ->. apply HU. exists z. auto.
Qed.

Theorem C128_sign1 : forall X s s' m t e d, law_pkcs1 X -> ~ uses pss_algs (s1_core m) ->
  sign1_encode X s m t e d = sign1_encode X s' m t e d.
Proof.
  intros X s s' m t e d LP HU. unfold sign1_encode. rewrite (signature_seed X s s' _ _ LP HU). reflexivity.
Qed.
Print Assumptions C128_sign1.

Theorem C128_sign : forall X s s' m t d, law_pkcs1 X -> Forall (fun c => ~ uses pss_algs c) (sm_signers m) ->
  sign_encode X s m t d = sign_encode X s' m t d.
Proof.
  intros X s s' m t d LP HF. unfold sign_encode.
  assert (H : forall l s s', Forall (fun c => ~ uses pss_algs c) l -> forall p, signers_encode X s p l d = signers_encode X s' p l d).
  { clear s s' HF. induction l as [|c l IH]; intros s s' HF p; [reflexivity|]. inversion_clear HF as [|? ? HC HL]. cbn [signers_encode].
    unfold signer_encode. rewrite (signature_seed X s s' c _ LP HC). rewrite (IH _ (N.succ s') HL p). reflexivity. }
  destruct (sm_signers m) as [|c l]; [reflexivity|]. rewrite (H (c :: l) s s' HF). reflexivity.
Qed.
Print Assumptions C128_sign.

(** ** Examples *)

(** A message whose first encoding draws a content key and an ephemeral key. *)
Definition ex_drawn : encmsg := ex_enc [ex_kw 0 (Some ex_sym) []; ex_agree 2].

Example C128_encrypt_example : exists n1 m1 b, law_urandom_len toy /\ Forall no_oaep (e_rcpts ex_drawn) /\
  encm_encode toy 3 ex_drawn true true = ((n1, m1), Ok b) /\ m1 <> ex_drawn /\ snd (encm_encode toy 77 ex_drawn true true) <> Ok b.
Proof.
  destruct (encm_encode toy 3 ex_drawn true true) as [[n1 m1] x1] eqn:E1. pose proof E1 as E. vm_compute in E. injection E as <- <- <-.
  do 3 eexists. split; [exact toy_urandom_len|]. split.
  { repeat constructor; intros (z & HZ & HG); cbn in HZ; repeat (destruct HZ as [<-|HZ]; [vm_compute in HG; discriminate HG|]); destruct HZ. }
  split; [reflexivity|]. split; [discriminate|]. vm_compute. discriminate.
Qed.

Example C128_mac_example : exists n1 m1 b, (forall rs, mm_rcpts (ex_mac [ex_direct 0; ex_direct 1]) = Some rs -> Forall no_oaep rs) /\
  macm_encode toy 0 (ex_mac [ex_direct 0; ex_direct 1]) true true = ((n1, m1), Ok b).
Proof.
  do 3 eexists. split; [|vm_compute; reflexivity]. intros rs E. injection E as <-.
  repeat constructor; intros (z & HZ & HG); cbn in HZ; repeat (destruct HZ as [<-|HZ]; [vm_compute in HG; discriminate HG|]); destruct HZ.
Qed.

Lemma toy_pkcs1 : law_pkcs1 toy.
Proof. intros h q s s' d. reflexivity. Qed.

Definition ex_s1 (z : Z) (k : key) : sign1 := Sign1 (Core [(Algorithm, alg z)] None [] [] true (Some (bs "hi")) [] (Some k)) (VBytes []).
Definition ex_sm : signmsg :=
  SignMsg (s1_core (ex_s1 (-7) ex_ec2)) [s1_core (ex_s1 (-7) ex_ec2); s1_core (ex_s1 (-257) ex_rsa)].

Ltac not_used := intros (z & HZ & HG); cbn in HZ; repeat (destruct HZ as [<-|HZ]; [vm_compute in HG; discriminate HG|]); destruct HZ.

Example C128_sign_example : ~ uses pss_algs (s1_core (ex_s1 (-257) ex_rsa)) /\ Forall (fun c => ~ uses pss_algs c) (sm_signers ex_sm) /\
  (exists b, sign1_encode toy 0 (ex_s1 (-257) ex_rsa) true true VNone = Ok b) /\ exists b, sign_encode toy 0 ex_sm true VNone = Ok b.
Proof.
  split; [not_used|]. split; [repeat (apply Forall_cons; [not_used|]); apply Forall_nil|].
  split; eexists; vm_compute; reflexivity.
Qed.

(** The two exceptions are needed: with a randomised padding the bytes differ. *)
Definition noisy : crypto := {|
  x_hash := x_hash toy;
  x_hmac := x_hmac toy;
  x_aes := x_aes toy;
  x_gcm_enc := x_gcm_enc toy;
  x_gcm_dec := x_gcm_dec toy;
  x_ccm_enc := x_ccm_enc toy;
  x_ccm_dec := x_ccm_dec toy;
  x_wrap := x_wrap toy;
  x_unwrap := x_unwrap toy;
  x_rsa_sign := fun pad h q s d => match pad with PSS => Ok (min_be s ++ min_be (rsa_n (rsa_public q)) ++ d) | PKCS1v15 => x_rsa_sign toy pad h q s d end;
  x_rsa_verify := x_rsa_verify toy;
  x_oaep_enc := fun h p s d => Ok (min_be s ++ d);
  x_oaep_dec := x_oaep_dec toy;
  x_ecdsa_sign := x_ecdsa_sign toy;
  x_ecdsa_verify := x_ecdsa_verify toy;
  x_ed_sign := x_ed_sign toy;
  x_ed_verify := x_ed_verify toy;
  x_ec_pub := x_ec_pub toy;
  x_ec_point := x_ec_point toy;
  x_ec_gen := x_ec_gen toy;
  x_ecdh := x_ecdh toy;
  x_hkdf := x_hkdf toy;
  x_okp_gen := x_okp_gen toy;
  x_okp_pub := x_okp_pub toy;
  x_rsa_gen := x_rsa_gen toy;
  x_urandom := x_urandom toy
|}.

Theorem C128_randomised : law_pkcs1 noisy /\ law_urandom_len noisy /\
  sign1_encode noisy 1 (ex_s1 (-37) ex_rsa) true true VNone <> sign1_encode noisy 2 (ex_s1 (-37) ex_rsa) true true VNone /\
  exists n1 m1 b, encm_encode noisy 3 (ex_enc [ex_oaep 0]) true true = ((n1, m1), Ok b) /\
    snd (encm_encode noisy 77 m1 true true) <> Ok b.
Proof.
  split; [intros h q s s' d; reflexivity|]. split; [exact toy_urandom_len|]. split; [vm_compute; discriminate|].
  destruct (encm_encode noisy 3 (ex_enc [ex_oaep 0]) true true) as [[n1 m1] x1] eqn:E1. pose proof E1 as E. vm_compute in E. injection E as <- <- <-.
  do 3 eexists. split; [reflexivity|]. vm_compute. discriminate.
Qed.
Print Assumptions C128_randomised.
