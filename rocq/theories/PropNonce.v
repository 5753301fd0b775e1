(** C120: a nonce is used once. *)
From Coq Require Import NArith ZArith Bool String.
From Coq Require Import Init.Byte List.
From Verif Require Import Bytes Value Cbor Registry Crypto Keys Algorithms Headers Messages Recipients Toy SpecAlg SpecIana SpecMsg SpecAccept SpecCek SpecNonce.
From Verif Require Import BytesProofs ValueProofs MiscProofs CekProofs PropHdr PropMsg PropRcpt PropRcptTrip PropAccept PropCek.
Import ListNotations.

Lemma numbered_nonce : forall c k base i, ckey c = Some k -> prop_get k PBaseIV = Ok (VBytes base) -> base <> [] -> numbered c i ->
  get_nonce c = Ok (VBytes (min_be (N.lxor i (of_be base)))).
Proof.
  intros c k base i HK HB HN (NI & p & HP & <-). destruct (nonce_exact c k base p NI HK HB HN HP) as (n & HG & HO & HD). rewrite HG, <- HO, (min_be_of_be n HD). reflexivity.
Qed.
Lemma xor_inj : forall a i j, N.lxor i a = N.lxor j a -> i = j.
Proof. intros a i j H. rewrite <- (N.lxor_0_r i), <- (N.lxor_0_r j), <- (N.lxor_nilpotent a), <- !N.lxor_assoc, H. reflexivity. Qed.
Lemma nonces_differ : forall a l, NoDup l -> NoDup (map (fun i => min_be (N.lxor i a)) l).
Proof.
  intros a l H. induction H as [|i l NI _ IH]; cbn [map]; constructor; [|exact IH]. intros HI. apply in_map_iff in HI as (j & E & HJ). apply min_be_inj, xor_inj in E. subst j. exact (NI HJ).
Qed.
Lemma sent_nonce : forall X c b, enc0_encode X c true true = Ok b -> exists n, get_nonce c = Ok (VBytes n) /\ sent_with X c n.
Proof.
  intros X c b H. destruct (C95_enc0 X c true b H) as (z & k & n & i & pt & ct & p & HA & HK & HN & HI & HP & HS & HE).
  exists n. split; [exact HN|]. exists z, k, i, pt, ct, p, b. repeat (split; [assumption|]). exact H.
Qed.

(** ** Numbering messages works *)

(** Any number of COSE_Encrypt0 messages under one key with a base IV, numbered with partial
    IVs that read as different numbers: each is encrypted, and all nonces are different. *)
Theorem C120_numbers_partial : forall X k l, with_base_iv k -> NoDup (map snd l) ->
  Forall (fun ci => ckey (fst ci) = Some k /\ numbered (fst ci) (snd ci) /\ exists b, enc0_encode X (fst ci) true true = Ok b) l ->
  exists nonces, Forall2 (fun ci n => sent_with X (fst ci) n) l nonces /\ NoDup nonces.
Proof.
  intros X k l (base & HB & HN) ND H. exists (map (fun i => min_be (N.lxor i (of_be base))) (map snd l)). split; [|apply nonces_differ; exact ND].
  clear ND. induction H as [|[c i] l (HK & HI & b & HE) _ IH]; cbn [map fst snd] in *; constructor; [|exact IH]. cbn [fst].
  destruct (sent_nonce X c b HE) as (n & HG & HS). rewrite (numbered_nonce c k base i HK HB HN HI) in HG. injection HG as <-. exact HS.
Qed.
Print Assumptions C120_numbers_partial.

(** The same for COSE_Encrypt messages with direct recipients. *)
Theorem C120_direct_numbers_partial : forall X n k l, with_base_iv k -> NoDup (map snd l) ->
  Forall (fun mi => has_class RDirect (e_rcpts (fst mi)) = true /\ ckey (e_core (fst mi)) = Some k /\ numbered (e_core (fst mi)) (snd mi) /\
                    exists s ct, encm_encrypt X n (fst mi) = (s, Ok ct)) l ->
  exists nonces, Forall2 (fun mi nc => encrypted_with X n (fst mi) nc) l nonces /\ NoDup nonces.
Proof.
  intros X n k l (base & HB & HN) ND H. exists (map (fun i => min_be (N.lxor i (of_be base))) (map snd l)). split; [|apply nonces_differ; exact ND].
  clear ND. induction H as [|[m i] l (HD & HK & HI & [n' m'] & ct & HE) _ IH]; cbn [map fst snd] in *; constructor; [|exact IH]. cbn [fst].
  assert (EM : m' = m).
  { revert HE. unfold encm_encrypt. destruct (bind (get_attr (e_core m) Algorithm) _); [|discriminate]. rewrite HD. intros HE. injection HE as _ <- _. reflexivity. }
  subst m'. destruct (C95_enc X n m n' m ct HE) as (z & k' & nc & j & pt & HA & HK' & HG & HJ & HP & HS).
  rewrite (numbered_nonce _ k base i HK HB HN HI) in HG. injection HG as <-. exists z, k', j, pt, ct, n', m. auto 10.
Qed.
Print Assumptions C120_direct_numbers_partial.

(** With IVs, the nonces are these: different IVs, different nonces. *)
Theorem C120_ivs_partial : forall X c iv b, header c IV (VBytes iv) -> enc0_encode X c true true = Ok b -> sent_with X c iv.
Proof.
  intros X c iv b HI H. destruct (sent_nonce X c b H) as (n & HG & HS). rewrite (nonce_iv c (VBytes iv) HI ltac:(discriminate)) in HG. injection HG as <-. exact HS.
Qed.
Print Assumptions C120_ivs_partial.

(** ** Missing *)

(** Nothing keeps an object from encrypting a second payload with the nonce of the first: this
    is what encoding it again always does. *)
Theorem C120_encoded_again_refuted : forall X c p p' b b', enc0_encode X (with_payload c p) true true = Ok b -> enc0_encode X (with_payload c p') true true = Ok b' ->
  exists nonce, sent_with X (with_payload c p) nonce /\ sent_with X (with_payload c p') nonce.
Proof.
  intros X c p p' b b' H H'. destruct (sent_nonce X _ b H) as (n & HG & HS). destruct (sent_nonce X _ b' H') as (n' & HG' & HS').
  change (get_nonce (with_payload c p')) with (get_nonce (with_payload c p)) in HG'. rewrite HG in HG'. injection HG' as <-. exists n. auto.
Qed.
Print Assumptions C120_encoded_again_refuted.

(** A message with both an IV and a partial IV, which RFC 8152 section 3.1 forbids, is encrypted
    and decrypted with the IV alone; so numbering messages that have an IV is without effect. *)
Theorem C120_both_refuted : forall X c iv v, header c IV (VBytes iv) -> let c' := with_uhdr c (dset (uhdr c) PartialIV v) in
  enc_encrypt X "Encrypt0" c' = enc_encrypt X "Encrypt0" c /\ enc0_decrypt X c' = enc0_decrypt X c.
Proof.
  intros X c iv v HI c'. assert (A : forall a, keyeq a PartialIV = false -> get_attr c' a = get_attr c a).
  { intros a NE. unfold c', get_attr, get_attr_default, dget_or. cbn [phdr uhdr with_uhdr]. rewrite (dget_dset_other _ _ _ _ NE). reflexivity. }
  assert (G : get_nonce c' = get_nonce c).
  { rewrite (nonce_iv c (VBytes iv) HI ltac:(discriminate)). apply nonce_iv; [|discriminate]. revert HI. unfold header, c'. cbn [phdr uhdr with_uhdr]. rewrite dget_dset_other by reflexivity. auto. }
  unfold enc0_decrypt, enc_encrypt, enc_decrypt. rewrite G, A by reflexivity. split; reflexivity.
Qed.
Print Assumptions C120_both_refuted.

(** ** Examples *)
Definition ex_based : key := Key KSym (k_store ex_sym ++ [(VClass KpBaseIV, VBytes (repeat x11 12))]) [].
Definition ex_numbered (p : bytes) : core :=
  Core [(Algorithm, alg 1)] None [(PartialIV, VBytes p)] [] false (Some (bs "hello")) (bs "aad") (Some ex_based).
Example C120_numbers_example : let l := [(ex_numbered [x01], 1%N); (ex_numbered [x00; x02], 2%N); (ex_numbered [x01; x00; x00], 65536%N)] in
  with_base_iv ex_based /\ NoDup (map snd l) /\
  Forall (fun ci => ckey (fst ci) = Some ex_based /\ numbered (fst ci) (snd ci) /\ exists b, enc0_encode toy (fst ci) true true = Ok b) l.
Proof.
  cbv zeta. split; [exists (repeat x11 12); split; [vm_compute; reflexivity|discriminate]|].
  split; [cbn [map snd]; repeat constructor; cbn [In]; intuition discriminate|].
  repeat (constructor; [cbn [fst snd]; split; [reflexivity|]; split; [split; [split; reflexivity|]; eexists; split; [right; split; vm_compute; reflexivity|vm_compute; reflexivity]|eexists; vm_compute; reflexivity]|]). constructor.
Qed.
Example C120_direct_numbers_example : let l := [(EncMsg (ex_numbered [x01]) [ex_direct 0], 1%N); (EncMsg (ex_numbered [x02]) [ex_direct 0], 2%N)] in
  NoDup (map snd l) /\
  Forall (fun mi => has_class RDirect (e_rcpts (fst mi)) = true /\ ckey (e_core (fst mi)) = Some ex_based /\ numbered (e_core (fst mi)) (snd mi) /\
                    exists s ct, encm_encrypt toy 0 (fst mi) = (s, Ok ct)) l.
Proof.
  cbv zeta. split; [cbn [map snd]; repeat constructor; cbn [In]; intuition discriminate|].
  repeat (constructor; [cbn [fst snd]; split; [reflexivity|]; split; [reflexivity|]; split; [split; [split; reflexivity|]; eexists; split; [right; split; vm_compute; reflexivity|vm_compute; reflexivity]|do 2 eexists; vm_compute; reflexivity]|]). constructor.
Qed.
Example C120_again_example : exists b b', b <> b' /\
  enc0_encode toy (with_payload (ex_numbered [x01]) (Some (bs "one"))) true true = Ok b /\
  enc0_encode toy (with_payload (ex_numbered [x01]) (Some (bs "two"))) true true = Ok b'.
Proof. do 2 eexists. split; [|split; vm_compute; reflexivity]. vm_compute. discriminate. Qed.
Example C120_iv_example : exists ct, header (ex_built (alg 1) true ex_sym) IV (VBytes (repeat x07 12)) /\ enc_encrypt toy "Encrypt0" (ex_built (alg 1) true ex_sym) = Ok ct.
Proof. eexists. split; [right; split; vm_compute; reflexivity|vm_compute; reflexivity]. Qed.
