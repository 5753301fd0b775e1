(** C90: what an accepted message rests on.

    Vocabulary: SpecAccept.v. [l] lists what was authenticated before, by anyone, as messages
    of any kind. [new_content i l]: no item of [l] has the kind, protected bytes, external data
    and payload of [i]. [fresh t l]: the primitive was given [t] for no item of [l]. So an
    accepted message with new content is a forgery against the primitive itself. *)
From Coq Require Import NArith ZArith Bool String.
From Coq Require Import Init.Byte List.
From Verif Require Import Bytes Value Cbor Registry Crypto Toy Keys Algorithms Headers Messages Recipients.
From Verif Require Import SpecCrypto SpecStruct SpecAlg SpecMsg SpecAccept AcceptProofs PropHdr PropMsg PropRcpt PropRcptTrip.
Import ListNotations.

(** Sign1: [verify_signature] answered True. *)
Theorem C90_sign1 : forall X m d l, sign1_verify X m (vopt d) = Ok true ->
  exists z k t s, get_attr (s1_core m) Algorithm = Ok (alg z) /\ ckey (s1_core m) = Some k /\ s1_sig m = VBytes s /\
    input (ISign1 (s1_core m) d) = Ok t /\ sig_accepts X z k t s /\
    (new_content (ISign1 (s1_core m) d) l -> fresh t l).
Proof.
  intros X m d l H. apply verify_signature_accepts in H as (z & k & t & b & HA & HK & HT & HS & H).
  exists z, k, t, b. repeat (split; [assumption|]). intros HN. exact (new_fresh (ISign1 (s1_core m) d) t l HT HN).
Qed.
Print Assumptions C90_sign1.

(** A signer [s] of a COSE_Sign message [m]. *)
Theorem C90_signer : forall X m s d l, signer_verify X (Some m) s (vopt d) = Ok true ->
  exists z k t sg, get_attr s Algorithm = Ok (alg z) /\ ckey s = Some k /\ payload s = Some sg /\
    input (ISigner m s d) = Ok t /\ sig_accepts X z k t sg /\
    (new_content (ISigner m s d) l -> fresh t l).
Proof.
  intros X m s d l H. apply verify_signature_accepts in H as (z & k & t & b & HA & HK & HT & HS & H).
  exists z, k, t, b. repeat (split; [assumption|]). split; [destruct (payload s); [injection HS as ->; reflexivity|discriminate]|].
  repeat (split; [assumption|]). intros HN. exact (new_fresh (ISigner m s d) t l HT HN).
Qed.
Print Assumptions C90_signer.

(** Mac0 and Mac: [verify_tag] answered True. *)
Theorem C90_mac0 : forall X m l, law_aes_len X -> mac0_verify_tag X m = Ok true ->
  exists z k t g, get_attr (m0_core m) Algorithm = Ok (alg z) /\ ckey (m0_core m) = Some k /\ m0_tag m = VBytes g /\
    input (IMac0 (m0_core m)) = Ok t /\ mac_accepts X z k t g /\
    (new_content (IMac0 (m0_core m)) l -> fresh t l).
Proof.
  intros X m l LA H. apply mac_verify_accepts in H as (z & k & t & b & HA & HK & HT & HS & H); [|exact LA].
  exists z, k, t, b. repeat (split; [assumption|]). intros HN. exact (new_fresh (IMac0 (m0_core m)) t l HT HN).
Qed.
Print Assumptions C90_mac0.

Theorem C90_mac : forall X m l, law_aes_len X -> macm_verify_tag X m = Ok true ->
  exists z k t g, get_attr (mm_core m) Algorithm = Ok (alg z) /\ ckey (mm_core m) = Some k /\ mm_tag m = VBytes g /\
    input (IMac (mm_core m)) = Ok t /\ mac_accepts X z k t g /\
    (new_content (IMac (mm_core m)) l -> fresh t l).
Proof.
  intros X m l LA H. apply mac_verify_accepts in H as (z & k & t & b & HA & HK & HT & HS & H); [|exact LA].
  exists z, k, t, b. repeat (split; [assumption|]). intros HN. exact (new_fresh (IMac (mm_core m)) t l HT HN).
Qed.
Print Assumptions C90_mac.

(** Encrypt0: [decrypt] returned [pt]. *)
Theorem C90_enc0 : forall X c pt l, enc0_decrypt X c = Ok pt ->
  exists z k nonce t ct, get_attr c Algorithm = Ok (alg z) /\ ckey c = Some k /\ get_nonce c = Ok (VBytes nonce) /\
    payload c = Some ct /\ input (IEnc0 c) = Ok t /\ aead_opens X z k nonce t ct pt /\
    (new_content (IEnc0 c) l -> fresh t l).
Proof.
  intros X c pt l H. apply enc_decrypt_opens in H as (z & k & nonce & t & ct & HA & HK & HN & HT & HP & H).
  exists z, k, nonce, t, ct. repeat (split; [assumption|]). intros HW. exact (new_fresh (IEnc0 c) t l HT HW).
Qed.
Print Assumptions C90_enc0.

(** Encrypt: [decrypt r] returned [pt]. The key is the one [decrypt] leaves in the message;
    headers, external data and ciphertext are those the message had before. *)
Theorem C90_enc : forall X m r m' pt l, encm_decrypt X m r = (m', Ok pt) ->
  exists z k nonce t ct, get_attr (e_core m) Algorithm = Ok (alg z) /\ ckey (e_core m') = Some k /\
    get_nonce (e_core m') = Ok (VBytes nonce) /\ payload (e_core m) = Some ct /\
    input (IEnc (e_core m)) = Ok t /\ aead_opens X z k nonce t ct pt /\
    (new_content (IEnc (e_core m)) l -> fresh t l).
Proof.
  intros X m r m' pt l H. apply encm_decrypt_opens in H as (_ & [o HO] & H).
  apply enc_decrypt_opens in H as (z & k & nonce & t & ct & HA & HK & HN & HT & HP & H).
  assert (HA' : get_attr (e_core m) Algorithm = Ok (alg z)) by (rewrite HO in HA; exact HA).
  assert (HT' : input (IEnc (e_core m)) = Ok t) by (rewrite HO in HT; exact HT).
  assert (HP' : payload (e_core m) = Some ct) by (rewrite HO in HP; exact HP).
  exists z, k, nonce, t, ct. repeat (split; [assumption|]). intros HW. exact (new_fresh (IEnc (e_core m)) t l HT' HW).
Qed.
Print Assumptions C90_enc.

(** ** Accepted messages, each with a history that does not contain it *)

Definition ex_built (a : pyval) (t : bool) (k : key) : core :=
  match core_init toy (ex_args a t k) with Ok c => c | Err _ => Core [] None [] [] false None [] None end.
Definition got_bytes (r : result bytes) : bytes := match r with Ok b => b | Err _ => [] end.
(** The same message with another payload. *)
Definition other (pl : bytes) (c : core) : core := Core (phdr c) (phdr_raw c) (uhdr c) (local c) (tstr c) (Some pl) (aad c) (ckey c).
(** The same message with other external data. *)
Definition moved (a : bytes) (c : core) : core := Core (phdr c) (phdr_raw c) (uhdr c) (local c) (tstr c) (payload c) a (ckey c).

Ltac differs := let j := fresh in let ct := fresh in let HI := fresh in let A := fresh in let B := fresh in
  intros j ct HI A B; cbn [In] in HI;
  repeat (destruct HI as [<-|HI]; [inversion A; subst; inversion B; subst; unfold signed_payload in *;
    repeat match goal with H : _ \/ _ |- _ => destruct H as [[? ?]|[? ?]] end; cbn [payload aad other moved] in *; congruence|]); destruct HI.
Lemma ex_history_sign1 : forall c pl a, payload c <> Some pl -> aad c <> a ->
  new_content (ISign1 c None) [ISign1 (other pl c) None; ISign1 (moved a c) None; ISigner c c None; IMac0 c].
Proof. intros c pl a HP HA. differs. Qed.
Lemma ex_history_mac0 : forall c pl a, payload c <> Some pl -> aad c <> a ->
  new_content (IMac0 c) [IMac0 (other pl c); IMac0 (moved a c); IMac c; ISign1 c None].
Proof. intros c pl a HP HA. differs. Qed.
Lemma ex_history_mac : forall c pl a, payload c <> Some pl -> aad c <> a ->
  new_content (IMac c) [IMac (other pl c); IMac (moved a c); IMac0 c; ISign1 c None].
Proof. intros c pl a HP HA. differs. Qed.
Lemma ex_history_signer : forall m s pl a, payload m <> Some pl -> aad s <> a ->
  new_content (ISigner m s None) [ISigner (other pl m) s None; ISigner m (moved a s) None; ISign1 s None].
Proof. intros m s pl a HP HA. differs. Qed.
Lemma ex_history_enc0 : forall c a, aad c <> a -> new_content (IEnc0 c) [IEnc0 (moved a c); IEnc c; IMac c; ISign1 c None].
Proof. intros c a HA. differs. Qed.
Lemma ex_history_enc : forall c a, aad c <> a -> new_content (IEnc c) [IEnc (moved a c); IEnc0 c].
Proof. intros c a HA. differs. Qed.

Example C90_sign1_example : exists s l,
  let m := Sign1 (ex_built (alg (-7)) true ex_pub) (VBytes s) in
  sign1_verify toy m (vopt None) = Ok true /\ length l = 4 /\ new_content (ISign1 (s1_core m) None) l /\
  Forall (fun i => exists t, input i = Ok t) l.
Proof.
  set (c := ex_built (alg (-7)) true ex_pub).
  exists (mix 64 (min_be 7 ++ got_bytes (sign1_structure c VNone))), [ISign1 (other (bs "hell") c) None; ISign1 (moved (bs "a") c) None; ISigner c c None; IMac0 c].
  cbv zeta. split; [vm_compute; reflexivity|]. split; [reflexivity|]. split.
  - apply ex_history_sign1; vm_compute; discriminate.
  - repeat (constructor; [eexists; vm_compute; reflexivity|]). constructor.
Qed.

Example C90_mac0_example : exists l,
  let m := fst (mac0_encode toy (Mac0 (ex_built (alg 5) false ex_sym) (VBytes [])) true true) in
  law_aes_len toy /\ mac0_verify_tag toy m = Ok true /\ length l = 4 /\ new_content (IMac0 (m0_core m)) l /\
  Forall (fun i => exists t, input i = Ok t) l.
Proof.
  set (c := ex_built (alg 5) false ex_sym).
  exists [IMac0 (other (bs "hell") c); IMac0 (moved (bs "a") c); IMac c; ISign1 c None].
  cbv zeta. split; [apply toy_aes_len|]. split; [vm_compute; reflexivity|]. split; [reflexivity|].
  assert (HC : m0_core (fst (mac0_encode toy (Mac0 c (VBytes [])) true true)) = c) by (vm_compute; reflexivity). rewrite HC. split.
  - apply ex_history_mac0; vm_compute; discriminate.
  - repeat (constructor; [eexists; vm_compute; reflexivity|]). constructor.
Qed.

Example C90_signer_example : exists sg l,
  let m := ex_built (alg (-7)) true ex_pub in
  let s := Core (phdr m) None [] [] true (Some sg) (bs "sig aad") (Some ex_pub) in
  signer_verify toy (Some m) s (vopt None) = Ok true /\ length l = 3 /\ new_content (ISigner m s None) l /\
  Forall (fun i => exists t, input i = Ok t) l.
Proof.
  set (c := ex_built (alg (-7)) true ex_pub).
  set (t := got_bytes (signer_structure (Some c) (Core (phdr c) None [] [] true None (bs "sig aad") None) VNone)).
  set (s := Core (phdr c) None [] [] true (Some (mix 64 (min_be 7 ++ t))) (bs "sig aad") (Some ex_pub)).
  exists (mix 64 (min_be 7 ++ t)), [ISigner (other (bs "hell") c) s None; ISigner c (moved (bs "a") s) None; ISign1 s None].
  cbv zeta. fold s. split; [vm_compute; reflexivity|]. split; [reflexivity|]. split.
  - apply ex_history_signer; vm_compute; discriminate.
  - repeat (constructor; [eexists; vm_compute; reflexivity|]). constructor.
Qed.

(** A message with two recipients; the second holds the key. *)
Example C90_mac_example : exists m l, law_aes_len toy /\ macm_verify_tag toy m = Ok true /\ length l = 4 /\
  new_content (IMac (mm_core m)) l /\ Forall (fun i => exists t, input i = Ok t) l.
Proof.
  set (c := mm_core (ex_mac [])).
  exists (MacMsg c (VBytes (firstn 32 (mix 32 (repeat x2a 16 ++ got_bytes (mac_structure "MAC" c))))) (Some [ex_direct 0; ex_kw 1 (Some ex_sym) []])).
  exists [IMac (other (bs "hell") c); IMac (moved (bs "a") c); IMac0 c; ISign1 c None].
  split; [apply toy_aes_len|]. split; [vm_compute; reflexivity|]. split; [reflexivity|]. cbn [mm_core]. split.
  - apply ex_history_mac; vm_compute; discriminate.
  - repeat (constructor; [eexists; vm_compute; reflexivity|]). constructor.
Qed.

Example C90_enc0_example : exists ct l,
  let c := other ct (ex_built (alg 1) true ex_sym) in
  enc0_decrypt toy c = Ok (bs "hello") /\ length l = 4 /\ new_content (IEnc0 c) l /\
  Forall (fun i => exists t, input i = Ok t) l.
Proof.
  set (o := ex_built (alg 1) true ex_sym). set (ct := got_bytes (enc_encrypt toy "Encrypt0" o)). set (c := other ct o).
  exists ct, [IEnc0 (moved (bs "a") c); IEnc c; IMac c; ISign1 c None].
  cbv zeta. fold c. split; [vm_compute; reflexivity|]. split; [reflexivity|]. split.
  - apply ex_history_enc0; vm_compute; discriminate.
  - repeat (constructor; [eexists; vm_compute; reflexivity|]). constructor.
Qed.

Example C90_enc_example : exists n2 m2 b c r0 r1,
  encm_encode toy 3 (ex_enc [ex_kw 0 (Some ex_sym) []; ex_kw 1 (Some ex_sym) []]) true true = ((n2, m2), Ok b) /\
  decode toy None true (VBytes b) = Ok (MEnc (EncMsg c [r0; r1])) /\
  (let r := r_with r1 (equip (r_core r1) ex_sym []) in
   let m := EncMsg (with_aad c (bs "aad")) [r0; r] in
   exists m', encm_decrypt toy m r = (m', Ok (bs "hello")) /\
     new_content (IEnc (e_core m)) [IEnc (moved (bs "a") (e_core m)); IEnc0 (e_core m)]).
Proof.
  do 6 eexists. (split; [vm_compute; reflexivity|]). (split; [vm_compute; reflexivity|]). cbv zeta.
  eexists. split; [vm_compute; reflexivity|]. apply ex_history_enc. vm_compute. discriminate.
Qed.
