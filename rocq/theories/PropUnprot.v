(** C119: what is not protected has no say. *)
From Coq Require Import NArith ZArith Bool String.
From Coq Require Import Init.Byte List.
From Verif Require Import Bytes Value Cbor Registry Crypto Keys Algorithms Headers Messages Recipients Toy SpecAlg SpecIana SpecMsg SpecRcptTrip SpecUnprot ValueProofs.
From Verif Require Import PropHdr PropMsg PropRcpt PropRcptTrip PropAccept.
Import ListNotations.
Local Open Scope result_scope.

Lemma rewritten_attr : forall but c c' a, rewritten but c c' -> In a but -> get_attr c a = get_attr c' a.
Proof.
  intros but c c' a (P & _ & _ & _ & _ & _ & _ & F) I. rewrite Forall_forall in F. unfold get_attr, get_attr_default, dget_or. rewrite P, (F a I). reflexivity.
Qed.
Lemma rewritten_phdr : forall but c c', rewritten but c c' -> phdr_encoded c = phdr_encoded c'.
Proof.
  intros but c c' (P & R & T & _). unfold phdr_encoded, dumps_msg. rewrite P, R, T. reflexivity.
Qed.
Lemma rewritten_base : forall but c c', rewritten but c c' -> base_protected c = base_protected c'.
Proof.
  intros but c c' H. unfold base_protected. rewrite (rewritten_phdr _ _ _ H). destruct H as (P & _). rewrite P. reflexivity.
Qed.
Lemma rewritten_with_key : forall but c c' k, rewritten but c c' -> rewritten but (with_key c k) (with_key c' k).
Proof. intros but c c' k (A & B & C & D & E & F & G & H). repeat (split; [assumption || reflexivity|]). exact H. Qed.
Lemma rewritten_equip : forall but c c' k a, rewritten but c c' -> rewritten but (equip c k a) (equip c' k a).
Proof. intros but c c' k a (A & B & C & D & E & F & G & H). repeat (split; [assumption || reflexivity|]). exact H. Qed.

(** ** Checking *)

(** Whether a COSE_Sign1 message is accepted, and with which exception it is refused, does not
    depend on its unprotected header but for the algorithm. *)
Theorem C119_sign1 : forall X c c' sig d, rewritten how_to_check c c' -> sign1_verify X (Sign1 c sig) d = sign1_verify X (Sign1 c' sig) d.
Proof.
  intros X c c' sig d H. unfold sign1_verify, verify_signature, key_verification, sign1_structure. cbn [s1_core s1_sig].
  rewrite (rewritten_attr _ _ _ Algorithm H), (rewritten_base _ _ _ H) by (left; reflexivity). destruct H as (_ & _ & _ & _ & P & A & K & _). rewrite P, A, K. reflexivity.
Qed.
Print Assumptions C119_sign1.

(** The signature of a signer of a COSE_Sign message: nothing in the unprotected header of the
    message matters, and of the signer's only the algorithm. *)
Theorem C119_signer : forall X m m' s s' d, rewritten [] m m' -> rewritten how_to_check s s' ->
  signer_verify X (Some m) s d = signer_verify X (Some m') s' d.
Proof.
  intros X m m' s s' d HM H. unfold signer_verify, verify_signature, key_verification, signer_structure.
  rewrite (rewritten_attr _ _ _ Algorithm H), (rewritten_phdr _ _ _ HM), (rewritten_phdr _ _ _ H) by (left; reflexivity).
  destruct HM as (_ & _ & _ & _ & PM & _). destruct H as (D & _ & _ & _ & P & A & K & _). rewrite PM, D, P, A, K. reflexivity.
Qed.
Print Assumptions C119_signer.

Lemma mac_verify_rewritten : forall X ctx c c' t, rewritten how_to_check c c' -> mac_verify X ctx c t = mac_verify X ctx c' t.
Proof.
  intros X ctx c c' t H. unfold mac_verify, mac_structure. rewrite (rewritten_attr _ _ _ Algorithm H), (rewritten_base _ _ _ H) by (left; reflexivity).
  destruct H as (_ & _ & _ & _ & P & A & K & _). rewrite P, A, K. reflexivity.
Qed.
Theorem C119_mac0 : forall X c c' t, rewritten how_to_check c c' -> mac0_verify_tag X (Mac0 c t) = mac0_verify_tag X (Mac0 c' t).
Proof. intros X c c' t H. apply mac_verify_rewritten. exact H. Qed.
Print Assumptions C119_mac0.

(** The tag of a COSE_Mac message: its recipients, protected or not, have no say either. *)
Theorem C119_mac : forall X c c' t rs rs', rewritten how_to_check c c' -> macm_verify_tag X (MacMsg c t rs) = macm_verify_tag X (MacMsg c' t rs').
Proof. intros X c c' t rs rs' H. apply mac_verify_rewritten. exact H. Qed.
Print Assumptions C119_mac.

(** ** Decrypting *)
Lemma enc_decrypt_rewritten : forall X ctx c c', rewritten how_to_decrypt c c' -> enc_decrypt X ctx c = enc_decrypt X ctx c'.
Proof.
  intros X ctx c c' H. unfold enc_decrypt, enc_structure, get_nonce.
  rewrite (rewritten_attr _ _ _ Algorithm H), (rewritten_attr _ _ _ IV H), (rewritten_attr _ _ _ PartialIV H), (rewritten_base _ _ _ H) by (cbn; auto).
  destruct H as (_ & _ & _ & _ & P & A & K & _). rewrite P, A, K. reflexivity.
Qed.
Theorem C119_enc0 : forall X c c', rewritten how_to_decrypt c c' -> enc0_decrypt X c = enc0_decrypt X c'.
Proof. intros X c c' H. apply enc_decrypt_rewritten. exact H. Qed.
Print Assumptions C119_enc0.

Lemma agree_kek_rewritten : forall X c c' t pk lk a, rewritten (how_to_unwrap RAgree) c c' -> agree_kek X c t pk lk a = agree_kek X c' t pk lk a.
Proof.
  intros X c c' t pk lk a H. unfold agree_kek. assert (E : get_kdf_context c t = get_kdf_context c' t).
  { unfold get_kdf_context.
    rewrite (rewritten_attr _ _ _ PartyUID H), (rewritten_attr _ _ _ PartyUNonce H), (rewritten_attr _ _ _ PartyUOther H),
      (rewritten_attr _ _ _ PartyVID H), (rewritten_attr _ _ _ PartyVNonce H), (rewritten_attr _ _ _ PartyVOther H) by (cbn; tauto).
    destruct H as (P & _ & _ & L & _). rewrite P, L. reflexivity. }
  rewrite E. reflexivity.
Qed.
Lemma kakw_rewritten : forall X c c', rewritten (how_to_unwrap RAgreeKW) c c' -> kakw_decrypt X c = kakw_decrypt X c'.
Proof.
  intros X c c' H. unfold kakw_decrypt.
  rewrite (rewritten_attr _ _ _ Algorithm H), (rewritten_attr _ _ _ EphemeralKey H), (rewritten_attr _ _ _ StaticKey H) by (cbn; tauto).
  assert (K := H). destruct K as (_ & _ & _ & _ & P & _ & K & _). rewrite P, K.
  destruct (get_attr c' Algorithm) as [alg|]; [|reflexivity]. cbn [bind]. destruct (alg_in alg es_kw) as [es|]; [|reflexivity]. cbn [bind].
  destruct (if es then _ else _) as [pk|]; [|reflexivity]. cbn [bind]. destruct (get_key_wrap_func alg) as [wf|]; [|reflexivity]. cbn [bind].
  rewrite (agree_kek_rewritten X c c' wf pk (ckey c') alg H). reflexivity.
Qed.
Lemma class_rewritten : forall rc s s', Forall2 rewritten_rcpt s s' -> has_class rc s = has_class rc s'.
Proof.
  intros rc s s' H. induction H as [|r r' s s' R _ IH]; [reflexivity|]. destruct R. cbn [has_class existsb r_class]. unfold has_class in IH. rewrite IH. reflexivity.
Qed.
Lemma length_rewritten : forall s s', Forall2 rewritten_rcpt s s' -> length s = length s'.
Proof. intros s s' H. induction H as [|r r' s s' R _ IH]; [reflexivity|]. cbn [length]. rewrite IH. reflexivity. Qed.
Lemma verify_rewritten : forall s s', Forall2 rewritten_rcpt s s' -> verify_recipients s = verify_recipients s'.
Proof.
  intros s s' H. unfold verify_recipients, n_classes. cbn [filter]. rewrite !(class_rewritten _ s s' H), (length_rewritten s s' H). reflexivity.
Qed.
Lemma id_rewritten : forall r r', rewritten_rcpt r r' -> r_id r = r_id r'.
Proof. intros r r' []. reflexivity. Qed.
Fixpoint has_in_rewritten (t : N) (r : rcpt) {struct r} : forall r', rewritten_rcpt r r' -> has_in t r = has_in t r'.
Proof.
  destruct r as [id rc c x s]. intros r' H. inversion H as [? ? ? c' ? x' ? s' HC HS]; subst. cbn [has_in]. generalize false. clear H HC.
  revert s' HS. induction s as [|y s IH]; intros s' HS b; inversion HS as [|? y' ? s0 HY HT]; subst; [reflexivity|].
  rewrite <- (id_rewritten y y' HY). destruct (N.eqb t (r_id y)); [reflexivity|].
  assert (E : match r_subs y with [] => b | _ => has_in t y end = match r_subs y' with [] => b | _ => has_in t y' end).
  { rewrite (has_in_rewritten t y y' HY). destruct HY as [? ? ? ? ? ? z z' _ HZ]. cbn [r_subs]. destruct HZ; reflexivity. }
  rewrite E. apply IH. exact HT.
Qed.
Lemma has_recipient_rewritten : forall t s s', Forall2 rewritten_rcpt s s' -> has_recipient t s = has_recipient t s'.
Proof.
  intros t s s' H. unfold has_recipient. generalize false. induction H as [|y y' s s' HY _ IH]; intros b; [reflexivity|].
  rewrite <- (id_rewritten y y' HY). destruct (N.eqb t (r_id y)); [reflexivity|].
  assert (E : match r_subs y with [] => b | _ => has_in t y end = match r_subs y' with [] => b | _ => has_in t y' end).
  { rewrite (has_in_rewritten t y y' HY). destruct HY as [? ? ? ? ? ? z z' _ HZ]. cbn [r_subs]. destruct HZ; reflexivity. }
  rewrite E. apply IH.
Qed.
Fixpoint decrypt_rewritten (X : crypto) (r : rcpt) {struct r} : forall r', rewritten_rcpt r r' -> rcpt_decrypt X r = rcpt_decrypt X r'.
Proof.
  destruct r as [id rc c x s]. intros r' H. inversion H as [? ? ? c' ? x' ? s' HC HS]; subst. cbn [rcpt_decrypt].
  destruct rc; [reflexivity| |reflexivity|apply kakw_rewritten; exact HC].
  rewrite (rewritten_attr _ _ _ Algorithm HC) by (left; reflexivity). rewrite (verify_rewritten s s' HS), !(class_rewritten _ s s' HS).
  destruct HC as (_ & _ & _ & _ & P & _ & K & _). rewrite P, K.
  destruct s as [|y s]; inversion HS as [|? y' ? s0 HY HT]; subst; [reflexivity|]. rewrite (decrypt_rewritten X y y' HY). reflexivity.
Qed.
Lemma cek_rewritten : forall X r r' t, rewritten_rcpt r r' -> compute_cek X r t true = compute_cek X r' t true.
Proof.
  intros X r r' t H. unfold compute_cek. rewrite (decrypt_rewritten X r r' H). destruct H as [id rc c c' x x' s s' HC HS]. cbn [r_class r_core].
  destruct rc; try reflexivity. f_equal. unfold agree_compute_cek.
  rewrite (rewritten_attr _ _ _ Algorithm HC), (rewritten_attr _ _ _ EphemeralKey HC), (rewritten_attr _ _ _ StaticKey HC) by (cbn; tauto).
  assert (K := HC). destruct K as (_ & _ & _ & L & _ & _ & K & _). rewrite K.
  destruct (get_attr c' Algorithm) as [alg|]; [|reflexivity]. cbn [bind]. destruct (alg_in alg (ss_hkdf ++ es_hkdf)) as [[]|]; try reflexivity. cbn [bind negb].
  destruct (ss <- alg_in alg ss_hkdf ;; _) as [pk|]; [|reflexivity]. cbn [bind]. destruct (is_none pk); [reflexivity|].
  destruct (peer pk) as [p|]; [|reflexivity]. cbn [bind]. destruct (key_verify p KEC2 alg _); [|reflexivity]. cbn [bind].
  destruct (ckey c') as [lk|]; [|reflexivity]. cbn [bind]. destruct (key_verify lk KEC2 alg _); [|reflexivity]. cbn [bind].
  rewrite (agree_kek_rewritten X c c' t pk (Some lk) alg HC). reflexivity.
Qed.

(** A COSE_Encrypt message: the message's own unprotected header but for the algorithm and the
    nonce, and those of all its recipients, nested ones too, but for the parameters that say how
    to get at the content key. A recipient of the direct class has no say at all. *)
Theorem C119_enc : forall X c c' rs rs' r r', rewritten how_to_decrypt c c' -> Forall2 rewritten_rcpt rs rs' -> rewritten_rcpt r r' ->
  snd (encm_decrypt X (EncMsg c rs) r) = snd (encm_decrypt X (EncMsg c' rs') r').
Proof.
  intros X c c' rs rs' r r' HC HS HR. unfold encm_decrypt. cbn [e_core e_rcpts].
  rewrite (rewritten_attr _ _ _ Algorithm HC) by (left; reflexivity). destruct (get_attr c' Algorithm) as [t|]; [|reflexivity].
  rewrite (id_rewritten r r' HR), (has_recipient_rewritten _ rs rs' HS), (verify_rewritten rs rs' HS), !(class_rewritten _ rs rs' HS).
  destruct (negb (has_recipient (r_id r') rs')); [reflexivity|]. destruct (verify_recipients rs'); [|reflexivity].
  destruct (has_class RDirect rs'). { apply enc_decrypt_rewritten. exact HC. }
  destruct (_ || _); [|reflexivity]. rewrite (cek_rewritten X r r' t HR). destruct (compute_cek X r' t true); [|reflexivity].
  apply enc_decrypt_rewritten. apply rewritten_with_key. exact HC.
Qed.
Print Assumptions C119_enc.

(** ** On the wire *)

(** Two arrays that differ only in their unprotected header give messages that do. *)
Lemma rewritten_received : forall X allow p u u' rest c t c' t', core_from_obj X allow (p :: u :: rest) = Ok (c, t) -> core_from_obj X allow (p :: u' :: rest) = Ok (c', t') ->
  t = t' /\ rewritten [] c c'.
Proof.
  intros X allow p u u' rest c t c' t' H H'. unfold core_from_obj in H, H'. apply bind_ok in H as (c0 & H0 & H). apply bind_ok in H' as (c0' & H0' & H').
  destruct rest as [|pl rest]; [discriminate|]. destruct (check_payload pl) as [pl'|]; [|discriminate]. cbn [bind] in H, H'. injection H as <- <-. injection H' as <- <-.
  split; [reflexivity|]. unfold core_init in H0, H0'. cbn [a_phdr a_phdr_encoded a_uhdr a_allow a_payload a_aad a_key a_tstr] in H0, H0'.
  apply bind_ok in H0 as (ph & HP & H0). apply bind_ok in H0' as (ph' & HP' & H0'). rewrite HP in HP'. injection HP' as <-.
  destruct ph as [| | | | | | | | | | |d| | | |]; try discriminate.
  destruct u as [| | | | | | | | | | |ud| | | |]; try discriminate; destruct u' as [| | | | | | | | | | |ud'| | | |]; try discriminate.
  all: apply bind_ok in H0 as (h & E & H0);
    apply bind_ok in H0' as (h' & E' & H0');
    rewrite E in E';
    injection E' as <-;
     apply bind_ok in H0 as (w & _ & H0);
    apply bind_ok in H0' as (w' & _ & H0');
    apply bind_ok in H0 as (raw & R & H0);
    apply bind_ok in H0' as (raw' & R' & H0');
    rewrite R in R';
    injection R' as <-;
     cbn [check_payload check_aad check_key bind as_bytes] in H0, H0';
    injection H0 as <-;
    injection H0' as <-;
    repeat (split; [reflexivity|]);
    constructor.
Qed.
Lemma rewritten_more : forall but c c', rewritten [] c c' -> Forall (fun a => dget (uhdr c) a = dget (uhdr c') a) but -> rewritten but c c'.
Proof. intros but c c' (A & B & C & D & E & F & G & _) H. repeat (split; [assumption|]). exact H. Qed.

(** Sign1: whoever forwards a message may rewrite its unprotected header; as long as the decoded
    algorithm is the same, every receiver comes to the same conclusion with every key and all
    external data. *)
Theorem C119_received_sign1 : forall X allow p u u' rest m m' k a d,
  from_cose_obj X allow 18 (p :: u :: rest) = Ok (MSign1 m) -> from_cose_obj X allow 18 (p :: u' :: rest) = Ok (MSign1 m') ->
  dget (uhdr (s1_core m)) Algorithm = dget (uhdr (s1_core m')) Algorithm ->
  sign1_verify X (Sign1 (equip (s1_core m) k a) (s1_sig m)) d = sign1_verify X (Sign1 (equip (s1_core m') k a) (s1_sig m')) d.
Proof.
  intros X allow p u u' rest m m' k a d H H' HA. cbn [from_cose_obj N.eqb Pos.eqb] in H, H'. apply bind_ok in H as (m0 & H & E). injection E as ->. apply bind_ok in H' as (m0' & H' & E). injection E as ->.
  unfold sign1_from_obj in H, H'. apply bind_ok in H as ([c t] & H & HS). apply bind_ok in H' as ([c' t'] & H' & HS').
  destruct (rewritten_received _ _ _ _ _ _ _ _ _ _ H H') as [<- HR]. destruct t as [|s t]; [discriminate|]. injection HS as <-. injection HS' as <-. cbn [s1_core s1_sig] in *.
  apply C119_sign1. apply rewritten_equip. apply rewritten_more; [exact HR|]. constructor; [exact HA|constructor].
Qed.
Print Assumptions C119_received_sign1.

Theorem C119_received_mac0 : forall X allow p u u' rest m m' k a,
  from_cose_obj X allow 17 (p :: u :: rest) = Ok (MMac0 m) -> from_cose_obj X allow 17 (p :: u' :: rest) = Ok (MMac0 m') ->
  dget (uhdr (m0_core m)) Algorithm = dget (uhdr (m0_core m')) Algorithm ->
  mac0_verify_tag X (Mac0 (equip (m0_core m) k a) (m0_tag m)) = mac0_verify_tag X (Mac0 (equip (m0_core m') k a) (m0_tag m')).
Proof.
  intros X allow p u u' rest m m' k a H H' HA. cbn [from_cose_obj N.eqb Pos.eqb] in H, H'. apply bind_ok in H as (m0 & H & E). injection E as ->. apply bind_ok in H' as (m0' & H' & E). injection E as ->.
  unfold mac0_from_obj in H, H'. apply bind_ok in H as ([c t] & H & HS). apply bind_ok in H' as ([c' t'] & H' & HS').
  destruct (rewritten_received _ _ _ _ _ _ _ _ _ _ H H') as [<- HR]. destruct t as [|s t]; [discriminate|]. injection HS as <-. injection HS' as <-. cbn [m0_core m0_tag] in *.
  apply C119_mac0. apply rewritten_equip. apply rewritten_more; [exact HR|]. constructor; [exact HA|constructor].
Qed.
Print Assumptions C119_received_mac0.

Theorem C119_received_enc0 : forall X allow p u u' rest c c' k a,
  from_cose_obj X allow 16 (p :: u :: rest) = Ok (MEnc0 c) -> from_cose_obj X allow 16 (p :: u' :: rest) = Ok (MEnc0 c') ->
  Forall (fun l => dget (uhdr c) l = dget (uhdr c') l) [Algorithm; IV; PartialIV] ->
  enc0_decrypt X (equip c k a) = enc0_decrypt X (equip c' k a).
Proof.
  intros X allow p u u' rest m m' k a H H' HA. cbn [from_cose_obj N.eqb Pos.eqb] in H, H'. apply bind_ok in H as (m0 & H & E). injection E as ->. apply bind_ok in H' as (m0' & H' & E). injection E as ->.
  unfold enc0_from_obj in H, H'. apply bind_ok in H as ([c t] & H & HS). apply bind_ok in H' as ([c' t'] & H' & HS').
  destruct (rewritten_received _ _ _ _ _ _ _ _ _ _ H H') as [<- HR]. injection HS as <-. injection HS' as <-.
  apply C119_enc0. apply rewritten_equip. apply rewritten_more; [exact HR|]. exact HA.
Qed.
Print Assumptions C119_received_enc0.

(** ** A protected algorithm cannot be switched *)

Lemma protected_wins : forall c c' a v w, rewritten [] c c' -> dget (phdr c) a = Some v -> v <> VNone -> get_attr c' a = Ok w -> get_attr (with_uhdr c []) a = Ok w.
Proof.
  intros c c' a v w (P & _) HV NV H. unfold get_attr, get_attr_default, dget_or in *. rewrite <- P, HV in H. cbn [phdr uhdr with_uhdr dget]. rewrite HV.
  assert (E : is_none v = false) by (destruct v; try reflexivity; destruct (NV eq_refl)). rewrite E in *. cbn [negb andb is_none] in *.
  destruct (is_none _) in H; [exact H|discriminate].
Qed.
Lemma rewritten_wiped : forall c c', rewritten [] c c' -> rewritten [] c' (with_uhdr c []).
Proof. intros c c' (A & B & C & D & E & F & G & _). repeat (split; [symmetry; assumption|]). constructor. Qed.

(** If the protected header names the algorithm, then no unprotected header whatsoever makes
    a check come out differently from the check without any: it can at most make it raise. *)
Theorem C119_protected_sign1 : forall X c c' v sig d b, rewritten [] c c' -> dget (phdr c) Algorithm = Some v -> v <> VNone ->
  sign1_verify X (Sign1 c' sig) d = Ok b -> sign1_verify X (Sign1 (with_uhdr c []) sig) d = Ok b.
Proof.
  intros X c c' v sig d b H HV NV HB. unfold sign1_verify, verify_signature, key_verification, sign1_structure in *. cbn [s1_core s1_sig] in *.
  apply bind_ok in HB as (alg & HA & HB). rewrite (protected_wins c c' Algorithm v alg H HV NV HA). cbn [bind].
  apply rewritten_wiped in H. rewrite (rewritten_base _ _ _ H) in HB. destruct H as (_ & _ & _ & _ & P & A & K & _). rewrite P, A, K in HB. exact HB.
Qed.
Print Assumptions C119_protected_sign1.

Theorem C119_protected_signer : forall X m m' c c' v d b, rewritten [] m m' -> rewritten [] c c' -> dget (phdr c) Algorithm = Some v -> v <> VNone ->
  signer_verify X (Some m') c' d = Ok b -> signer_verify X (Some (with_uhdr m [])) (with_uhdr c []) d = Ok b.
Proof.
  intros X m m' c c' v d b HM H HV NV HB. unfold signer_verify, verify_signature, key_verification, signer_structure in *.
  apply bind_ok in HB as (alg & HA & HB). rewrite (protected_wins c c' Algorithm v alg H HV NV HA). cbn [bind].
  apply rewritten_wiped in H. apply rewritten_wiped in HM. rewrite (rewritten_phdr _ _ _ H), (rewritten_phdr _ _ _ HM) in HB.
  destruct HM as (_ & _ & _ & _ & PM & _). destruct H as (D & _ & _ & _ & P & A & K & _). rewrite PM, D, P, A, K in HB. exact HB.
Qed.
Print Assumptions C119_protected_signer.

Theorem C119_protected_mac0 : forall X c c' v t b, rewritten [] c c' -> dget (phdr c) Algorithm = Some v -> v <> VNone ->
  mac0_verify_tag X (Mac0 c' t) = Ok b -> mac0_verify_tag X (Mac0 (with_uhdr c []) t) = Ok b.
Proof.
  intros X c c' v t b H HV NV HB. unfold mac0_verify_tag, mac_verify, mac_structure in *. cbn [m0_core m0_tag] in *.
  apply bind_ok in HB as (alg & HA & HB). rewrite (protected_wins c c' Algorithm v alg H HV NV HA). cbn [bind].
  apply rewritten_wiped in H. rewrite (rewritten_base _ _ _ H) in HB. destruct H as (_ & _ & _ & _ & P & A & K & _). rewrite P, A, K in HB. exact HB.
Qed.
Print Assumptions C119_protected_mac0.

(** Decryption, when algorithm and nonce are protected. *)
Theorem C119_protected_enc0 : forall X c c' v iv b, rewritten [] c c' -> dget (phdr c) Algorithm = Some v -> v <> VNone -> dget (phdr c) IV = Some iv -> iv <> VNone ->
  enc0_decrypt X c' = Ok b -> enc0_decrypt X (with_uhdr c []) = Ok b.
Proof.
  intros X c c' v iv b H HV NV HI NI HB. unfold enc0_decrypt, enc_decrypt, enc_structure in *.
  apply bind_ok in HB as (alg & HA & HB). rewrite (protected_wins c c' Algorithm v alg H HV NV HA). cbn [bind].
  apply bind_ok in HB as (n & HN & HB). unfold get_nonce in HN. apply bind_ok in HN as (w & HW & HN).
  assert (W := protected_wins c c' IV iv w H HI NI HW). assert (E : w = iv).
  { revert W. unfold get_attr, get_attr_default, dget_or. cbn [phdr uhdr with_uhdr dget]. rewrite HI. destruct iv; cbn; congruence. }
  subst w. assert (F : is_none iv = false) by (destruct iv; try reflexivity; destruct (NI eq_refl)). rewrite F in HN. injection HN as <-.
  unfold get_nonce. rewrite W. cbn [bind]. rewrite F. cbn [bind].
  apply rewritten_wiped in H. rewrite (rewritten_base _ _ _ H) in HB. destruct H as (_ & _ & _ & _ & P & A & K & _). rewrite P, A, K in HB. exact HB.
Qed.
Print Assumptions C119_protected_enc0.

(** ** Messages that are accepted, and rewritten *)

(** Key identifier and note dropped, the initialisation vector kept or not, something added. *)
Definition ex_rewrite (c : core) : core :=
  with_uhdr c ([(VClass (Cls FHdr 4), VBytes (bs "other")); (VInt 777, VNone)] ++ (match dget (uhdr c) IV with Some v => [(IV, v)] | None => [] end)).
Lemma ex_rewrite_ok : forall but c, Forall (fun a => dget (uhdr c) a = dget (uhdr (ex_rewrite c)) a) but -> rewritten but c (ex_rewrite c).
Proof. intros but c H. repeat (split; [reflexivity|]). exact H. Qed.
Ltac kept := repeat (constructor; [vm_compute; reflexivity|]); constructor.

Example C119_sign1_example : exists s, let c := ex_built (alg (-7)) true ex_pub in
  rewritten how_to_check c (ex_rewrite c) /\ uhdr c <> uhdr (ex_rewrite c) /\ dget (phdr c) Algorithm = Some (alg (-7)) /\
  sign1_verify toy (Sign1 c (VBytes s)) VNone = Ok true.
Proof.
  set (c := ex_built (alg (-7)) true ex_pub). exists (mix 64 (min_be 7 ++ got_bytes (sign1_structure c VNone))). cbv zeta.
  split; [apply ex_rewrite_ok; kept|]. split; [vm_compute; discriminate|]. split; vm_compute; reflexivity.
Qed.
Example C119_signer_example : exists sg, let m := ex_built (alg (-7)) true ex_pub in
  let s := Core (phdr m) None (uhdr m) [] true (Some sg) (bs "sig aad") (Some ex_pub) in
  rewritten [] m (ex_rewrite m) /\ rewritten how_to_check s (ex_rewrite s) /\ signer_verify toy (Some m) s VNone = Ok true.
Proof.
  set (c := ex_built (alg (-7)) true ex_pub).
  set (t := got_bytes (signer_structure (Some c) (Core (phdr c) None (uhdr c) [] true None (bs "sig aad") None) VNone)).
  exists (mix 64 (min_be 7 ++ t)). cbv zeta. split; [apply ex_rewrite_ok; constructor|]. split; [apply ex_rewrite_ok; kept|]. vm_compute. reflexivity.
Qed.
Example C119_mac_example : exists t, let c := ex_built (alg 5) false ex_sym in
  rewritten how_to_check c (ex_rewrite c) /\ mac0_verify_tag toy (Mac0 c t) = Ok true.
Proof.
  set (c := ex_built (alg 5) false ex_sym). exists (m0_tag (fst (mac0_compute_tag toy (Mac0 c (VBytes []))))). cbv zeta.
  split; [apply ex_rewrite_ok; kept|]. vm_compute. reflexivity.
Qed.
Example C119_enc0_example : exists ct, let c := other ct (ex_built (alg 1) true ex_sym) in
  rewritten how_to_decrypt c (ex_rewrite c) /\ uhdr c <> uhdr (ex_rewrite c) /\ enc0_decrypt toy c = Ok (bs "hello").
Proof.
  set (o := ex_built (alg 1) true ex_sym). exists (got_bytes (enc_encrypt toy "Encrypt0" o)). cbv zeta.
  split; [apply ex_rewrite_ok; kept|]. split; [vm_compute; discriminate|]. vm_compute. reflexivity.
Qed.
(** A received message with two recipients, the second of which has gained a key identifier. *)
Example C119_enc_example : exists n2 m2 b c r0 r1,
  encm_encode toy 3 (ex_enc [ex_kw 0 (Some ex_sym) []; ex_kw 1 (Some ex_sym) []]) true true = ((n2, m2), Ok b) /\
  decode toy None true (VBytes b) = Ok (MEnc (EncMsg c [r0; r1])) /\
  (let r := r_with r1 (equip (r_core r1) ex_sym []) in
   let r' := r_with r (with_uhdr (r_core r) (uhdr (r_core r) ++ [(VClass (Cls FHdr 4), VBytes (bs "new"))])) in
   let c' := with_aad c (bs "aad") in
   rewritten_rcpt r r' /\ rewritten_rcpt r0 r0 /\ rewritten how_to_decrypt c' c' /\ exists m', encm_decrypt toy (EncMsg c' [r0; r]) r = (m', Ok (bs "hello"))).
Proof.
  do 6 eexists. (split; [vm_compute; reflexivity|]). (split; [vm_compute; reflexivity|]). cbv zeta.
  split; [apply RewrittenRcpt; [repeat (split; [reflexivity|]); kept|constructor]|].
  split; [apply RewrittenRcpt; [repeat (split; [reflexivity|]); kept|constructor]|].
  split; [repeat (split; [reflexivity|]); kept|]. eexists. vm_compute. reflexivity.
Qed.
(** The array of a Sign1 message with two different unprotected headers. *)
Example C119_received_example : exists m m',
  from_cose_obj toy true 18 [VBytes [xa1; x01; x26]; VDict [(VInt 4, VBytes (bs "11"))]; VBytes (bs "hello"); VBytes [x01]] = Ok (MSign1 m) /\
  from_cose_obj toy true 18 [VBytes [xa1; x01; x26]; VDict [(VStr (bs "note"), VNone)]; VBytes (bs "hello"); VBytes [x01]] = Ok (MSign1 m') /\
  uhdr (s1_core m) <> uhdr (s1_core m') /\ dget (uhdr (s1_core m)) Algorithm = dget (uhdr (s1_core m')) Algorithm.
Proof. do 2 eexists. split; [vm_compute; reflexivity|]. split; [vm_compute; reflexivity|]. split; [vm_compute; discriminate|vm_compute; reflexivity]. Qed.
(** What the hypotheses exclude: a copy of the protected algorithm in the unprotected header is
    refused. *)
Example C119_copy_example : exists s, let c := ex_built (alg (-7)) true ex_pub in
  sign1_verify toy (Sign1 c (VBytes s)) VNone = Ok true /\ sign1_verify toy (Sign1 (with_uhdr c [(Algorithm, alg (-7))]) (VBytes s)) VNone = Err CoseException.
Proof.
  set (c := ex_built (alg (-7)) true ex_pub). exists (mix 64 (min_be 7 ++ got_bytes (sign1_structure c VNone))). cbv zeta. split; vm_compute; reflexivity.
Qed.
