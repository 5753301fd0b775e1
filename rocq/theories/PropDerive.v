(** C98: content keys derived from a shared secret (RFC 8152 section 12.1.2).

    Vocabulary: SpecDerive.v. *)
From Coq Require Import NArith ZArith Bool String.
From Coq Require Import Init.Byte List.
From Verif Require Import Bytes Value Cbor Registry Crypto Toy Keys Algorithms Headers Messages Recipients Derive.
From Verif Require Import SpecMsg SpecAlg SpecAccept SpecCek SpecDerive ValueProofs AcceptProofs CekProofs PropHdr PropMsg PropRcpt.
Import ListNotations.

Lemma direct_class : forall rs, shared_secret rs -> has_class RDirect rs = true /\ verify_recipients rs = Ok tt.
Proof.
  intros rs [HN HF].
  assert (HD : has_class RDirect rs = true).
  { destruct HF as [|r rs HR HF]; [contradiction|]. unfold has_class. cbn [existsb]. rewrite HR. reflexivity. }
  assert (HO : forall rc, rc <> RDirect -> has_class rc rs = false).
  { intros rc HC. unfold has_class. clear HN HD. induction HF as [|r rs HR HF IH]; [reflexivity|]. cbn [existsb]. rewrite HR, IH.
    destruct rc; try reflexivity. contradiction. }
  split; [exact HD|]. unfold verify_recipients, n_classes. cbn [filter]. rewrite HD, !HO by discriminate. reflexivity.
Qed.

(** ** Refuted: nothing is derived *)

(** Which algorithm the recipients use, their salts and parties: the ciphertext of the message
    is always the same, namely the one for recipients that use the shared secret directly. *)
Theorem C98_enc_refuted : forall X n n' c rs rs', shared_secret rs -> shared_secret rs' ->
  snd (encm_encrypt X n (EncMsg c rs)) = snd (encm_encrypt X n' (EncMsg c rs')).
Proof.
  intros X n n' c rs rs' H H'. apply direct_class in H as [HD HV]. apply direct_class in H' as [HD' HV'].
  unfold encm_encrypt. cbn [e_core e_rcpts]. rewrite HV, HV', HD, HD'. destruct (get_attr c Algorithm); reflexivity.
Qed.
Print Assumptions C98_enc_refuted.

Theorem C98_mac_refuted : forall X n n' c t rs rs', shared_secret rs -> shared_secret rs' ->
  snd (macm_compute_tag X n (MacMsg c t (Some rs))) = snd (macm_compute_tag X n' (MacMsg c t (Some rs'))).
Proof.
  intros X n n' c t rs rs' H H'. apply direct_class in H as [HD HV]. apply direct_class in H' as [HD' HV'].
  unfold macm_compute_tag. cbn [mm_core mm_rcpts]. rewrite HV, HV', HD, HD'. destruct (get_attr c Algorithm); [|reflexivity].
  unfold mac_super_compute. cbn [mm_core]. destruct (mac_compute X "MAC" c); reflexivity.
Qed.
Print Assumptions C98_mac_refuted.

(** The receiver, too: what decrypting gives depends on the recipients in no way. *)
Theorem C98_decrypt_refuted : forall X c rs rs' r r', shared_secret rs -> shared_secret rs' -> In r rs -> In r' rs' ->
  snd (encm_decrypt X (EncMsg c rs) r) = snd (encm_decrypt X (EncMsg c rs') r').
Proof.
  intros X c rs rs' r r' H H' HI HI'. apply direct_class in H as [HD HV]. apply direct_class in H' as [HD' HV'].
  unfold encm_decrypt. cbn [e_core e_rcpts].
  rewrite HV, HV', HD, HD', (C47_top_level_partial _ _ _ HI eq_refl), (C47_top_level_partial _ _ _ HI' eq_refl).
  destruct (get_attr c Algorithm); reflexivity.
Qed.
Print Assumptions C98_decrypt_refuted.

(** [compute_cek] of such a recipient never returns a key; with a key that may be used for
    derivation it raises NotImplementedError. *)
Theorem C98_compute_refuted : forall c a, In a direct_kdf -> get_attr c Algorithm = Ok (alg a) ->
  (forall o, direct_compute_cek c <> Ok o) /\
  (forall k, ckey c = Some k -> key_verify k KSym (alg a) [DeriveKeyOp; DeriveBitsOp] = Ok tt -> direct_compute_cek c = Err NotImplementedError).
Proof.
  intros c a HA HG. unfold direct_compute_cek. rewrite HG. cbn [bind].
  assert (HN : veqb (alg a) (VClass (Cls FAlg (-6))) = false).
  { cbn in HA. repeat (destruct HA as [<-|HA]; [reflexivity|]). destruct HA. }
  rewrite HN. split.
  - intros o H. apply bind_ok in H as (k & _ & H). apply bind_ok in H as (u & _ & H). discriminate.
  - intros k -> HK. cbn [bind]. rewrite HK. reflexivity.
Qed.
Print Assumptions C98_compute_refuted.

(** ** Proved: the shared secret used directly (RFC 8152 section 12.1.1) *)

(** The message is sealed and opened with the key it was given, which encoding keeps; with the
    algorithm [direct], [compute_cek] leaves it to that key. *)
Theorem C98_direct_partial : forall X n m, shared_secret (e_rcpts m) ->
  (forall s ct, encm_encrypt X n m = (s, Ok ct) ->
     s = (n, m) /\
     exists z k nonce i pt, get_attr (e_core m) Algorithm = Ok (alg z) /\ ckey (e_core m) = Some k /\
       get_nonce (e_core m) = Ok (VBytes nonce) /\ input (IEnc (e_core m)) = Ok i /\ payload (e_core m) = Some pt /\
       aead_sealed X z k nonce i pt ct) /\
  (forall r m' pt, encm_decrypt X m r = (m', Ok pt) -> m' = m /\
     exists z k nonce i ct, get_attr (e_core m) Algorithm = Ok (alg z) /\ ckey (e_core m) = Some k /\
       get_nonce (e_core m) = Ok (VBytes nonce) /\ input (IEnc (e_core m)) = Ok i /\ payload (e_core m) = Some ct /\
       aead_opens X z k nonce i ct pt) /\
  (forall c, get_attr c Algorithm = Ok (alg (-6)) -> direct_compute_cek c = Ok None).
Proof.
  intros X n m H. apply direct_class in H as [HD HV]. split; [|split].
  - intros s ct H. unfold encm_encrypt in H. rewrite HV, HD in H. destruct (get_attr (e_core m) Algorithm) as [t|] eqn:EA; [|discriminate].
    cbn [bind] in H. injection H as <- HC. split; [reflexivity|].
    apply ciphertext_made in HC as (z & k & nonce & i & pt & HA & HK & HN & HT & HP & HC). rewrite EA in HA. injection HA as ->.
    exists z, k, nonce, i, pt. auto 10.
  - intros r m' pt H. unfold encm_decrypt in H. rewrite HV, HD in H. destruct (get_attr (e_core m) Algorithm) as [t|] eqn:EA; [|discriminate].
    destruct (negb _); [discriminate|]. injection H as <- HC. split; [reflexivity|].
    apply enc_decrypt_opens in HC as (z & k & nonce & i & ct & HA & HK & HN & HT & HP & HC). rewrite EA in HA. injection HA as ->.
    exists z, k, nonce, i, ct. auto 10.
  - intros c HC. unfold direct_compute_cek. rewrite HC. reflexivity.
Qed.
Print Assumptions C98_direct_partial.

(** A message for a recipient with direct+HKDF-SHA-256 and a salt, and the same message for a
    recipient who uses the secret as it is: the same ciphertext. *)
Definition ex_hkdf (salt : bytes) : rcpt :=
  Rcpt 0 RDirect (ex_core [(Algorithm, alg (-10)); (VClass (Cls FHdr (-20)), VBytes salt)] [] (Some ex_sym) []) (VStr []) [].

Example C98_example :
  shared_secret [ex_hkdf (bs "one")] /\ shared_secret [ex_hkdf (bs "two")] /\ shared_secret [ex_direct 0] /\
  In (-10)%Z direct_kdf /\ get_attr (r_core (ex_hkdf (bs "one"))) Algorithm = Ok (alg (-10)) /\
  direct_compute_cek (r_core (ex_hkdf (bs "one"))) = Err NotImplementedError /\
  exists ct, encm_encrypt toy 0 (ex_enc [ex_hkdf (bs "one")]) = ((0%N, ex_enc [ex_hkdf (bs "one")]), Ok ct) /\
    snd (encm_encrypt toy 0 (ex_enc [ex_hkdf (bs "two")])) = Ok ct /\
    snd (encm_encrypt toy 0 (ex_enc [ex_direct 0])) = Ok ct /\
    snd (encm_decrypt toy (EncMsg (with_payload (e_core (ex_enc [])) (Some ct)) [ex_hkdf (bs "one")]) (ex_hkdf (bs "one"))) = Ok (bs "hello").
Proof.
  do 3 (split; [split; [discriminate|constructor; [reflexivity|constructor]]|]).
  split; [left; reflexivity|]. split; [reflexivity|]. split; [vm_compute; reflexivity|].
  eexists. split; [vm_compute; reflexivity|]. repeat split; vm_compute; reflexivity.
Qed.
