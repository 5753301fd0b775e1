(** C120 for messages with recipients. *)
From Coq Require Import NArith ZArith Bool String Lia.
From Coq Require Import Init.Byte List.
From Verif Require Import Bytes Value Cbor Registry Crypto Keys Algorithms Headers Messages Recipients Toy SpecCrypto SpecAlg SpecIana SpecTrip SpecMsg SpecRcptTrip SpecAccept SpecCek SpecNonce SpecFresh SpecNonce2.
From Verif Require Import BytesProofs ValueProofs MiscProofs WireProofs CekProofs FreshProofs RcptTrip6 PropHdr PropMsg PropRcpt PropRcptTrip PropAccept PropCek PropFresh PropLen PropNonce.
Import ListNotations.
Local Open Scope result_scope.
Local Open Scope list_scope.

Lemma encode_encrypts : forall X n m t n1 m1 b, encm_encode X n m t true = ((n1, m1), Ok b) ->
  exists n2 m2 ct, encm_encrypt X n m = ((n2, m2), Ok ct) /\ (n2 <= n1)%N /\ e_core m1 = e_core m2.
Proof.
  intros X n m t n1 m1 b H. pose proof H as H0. unfold encm_encode in H. destruct (phdr_encoded (e_core m)) as [p|]; [|discriminate].
  destruct (encm_encrypt X n m) as [[n2 m2] [y|]] eqn:EE; cbn [bind] in H; [|discriminate]. exists n2, m2, y. split; [reflexivity|].
  destruct (e_rcpts m2) as [|r rs] eqn:ER; [apply pair_equal_spec in H as [H _]; injection H as <- <-; split; [lia|reflexivity]|].
  destruct (get_attr (e_core m2) Algorithm) as [a|]; [|discriminate].
  destruct (rcpts_encode X n2 (r :: rs)) as [[n3 rs'] [vs|]] eqn:E4; [|discriminate]. apply pair_equal_spec in H as [H _]. injection H as <- <-.
  split; [|reflexivity]. apply encode_drawn in E4 as [E4 _]. exact E4.
Qed.

Lemma secret_unique : forall k K K', secret k K -> secret k K' -> K = K'.
Proof. intros k K K' H H'. unfold secret in *. congruence. Qed.

(** What is sealed is sealed with the key then in the message. *)
Lemma sealed_key : forall X n m t n1 m1 b K nonce, encm_encode X n m t true = ((n1, m1), Ok b) -> sealed_with X n m K nonce ->
  exists k, ckey (e_core m1) = Some k /\ secret k K.
Proof.
  intros X n m t n1 m1 b K nonce H (z & k & i & pt & ct & n' & m' & HE & _ & HK & HS & _). apply encode_encrypts in H as (n2 & m2 & ct2 & HE2 & _ & HC).
  rewrite HE in HE2. injection HE2 as <- <- <-. exists k. rewrite HC. split; assumption.
Qed.

Lemma sealed_iv : forall X n m t n1 m1 b k K iv, header (e_core m) IV (VBytes iv) -> encm_encode X n m t true = ((n1, m1), Ok b) ->
  ckey (e_core m1) = Some k -> secret k K -> sealed_with X n m K iv.
Proof.
  intros X n m t n1 m1 b k K iv HI H HK HS. apply encode_encrypts in H as (n2 & m2 & ct & HE & _ & HC). rewrite HC in HK.
  destruct (C95_enc X n m n2 m2 ct HE) as (z & k' & nonce & i & pt & HA & HK' & HN & HT & HP & HX). rewrite HK in HK'. injection HK' as <-.
  apply encm_encrypt_out in HE as HO. destruct HO as (_ & o & HO).
  assert (E : nonce = iv).
  { assert (HG : get_nonce (e_core m2) = Ok (VBytes iv)) by (apply nonce_iv; [rewrite HO; exact HI|discriminate]). rewrite HG in HN. injection HN as ->. reflexivity. }
  subst nonce. exists z, k, i, pt, ct, n2, m2. auto 10.
Qed.

Lemma has_key_of : forall X n m t n1 m1 b, law_urandom_len X -> Forall wraps (e_rcpts m) -> no_content_key m -> encm_encode X n m t true = ((n1, m1), Ok b) ->
  exists K k len, ckey (e_core m1) = Some k /\ secret k K /\ has_key K m1 /\ In len [16; 24; 32] /\ K = x_urandom X n len /\ (n < n1)%N.
Proof.
  intros X n m t n1 m1 b LU HW HB H. destruct (C129_used X n m t n1 m1 b LU HW HB H) as (K & k & len & HK & HS & HG & _ & HL & HE).
  destruct (encode_made X LU _ _ _ _ _ _ HW HB H) as (len' & HL' & HH). pose proof (was_given_key _ _ _ HH HG) as E.
  exists K, k, len. split; [exact HK|]. split; [exact HS|]. split; [rewrite E; exact HH|]. split; [exact HL|]. split; [exact HE|].
  destruct (encode_content X LU _ _ _ _ _ _ _ (or_introl HB) H) as [HC|(p & HP & _)]; [|lia].
  exfalso. destruct HC as [->|[[_ B]|(K2 & B & _)]]; [exact (has_key_not_blank _ _ HH HB)|exact (has_key_not_blank _ _ HH B)|exact (has_key_not_blank _ _ B HB)].
Qed.

(** ** C120. Keys made for a message *)

(** If the library makes the content keys, no two messages are encrypted with the same key; so an IV
    may be used for any number of them. *)
Theorem C120_random_keys : forall X n m t n1 m1 b n2 m' t' n3 m1' b' K K' nonce nonce', law_urandom_len X ->
  Forall wraps (e_rcpts m) -> no_content_key m -> encm_encode X n m t true = ((n1, m1), Ok b) -> (n1 <= n2)%N ->
  Forall wraps (e_rcpts m') -> no_content_key m' -> encm_encode X n2 m' t' true = ((n3, m1'), Ok b') -> new_key_bytes X n n3 ->
  sealed_with X n m K nonce -> sealed_with X n2 m' K' nonce' -> K <> K'.
Proof.
  intros X n m t n1 m1 b n2 m' t' n3 m1' b' K K' nonce nonce' LU HW HB H HL HW' HB' H' HN HS HS'.
  destruct (has_key_of X n m t n1 m1 b LU HW HB H) as (K0 & k & len & HK & HK0 & _ & HI & -> & HLt).
  destruct (has_key_of X n2 m' t' n3 m1' b' LU HW' HB' H') as (K0' & k' & len' & HK' & HK0' & _ & HI' & -> & HLt').
  destruct (sealed_key _ _ _ _ _ _ _ _ _ H HS) as (q & HQ & HQK). destruct (sealed_key _ _ _ _ _ _ _ _ _ H' HS') as (q' & HQ' & HQK').
  rewrite HK in HQ. injection HQ as <-. rewrite HK' in HQ'. injection HQ' as <-. rewrite (secret_unique _ _ _ HQK HK0), (secret_unique _ _ _ HQK' HK0').
  apply HN; [exact HI|exact HI'|lia|lia|lia].
Qed.
Print Assumptions C120_random_keys.

(** But a message that is given another payload after it has been sent keeps its content key: it is
    encrypted with the key and the nonce of the first payload, whatever the random source does. *)
Theorem C120_wrapped_again_refuted : forall X n m t n1 m1 b iv p n2 t' s b', law_urandom_len X ->
  Forall wraps (e_rcpts m) -> no_content_key m -> header (e_core m) IV (VBytes iv) -> encm_encode X n m t true = ((n1, m1), Ok b) ->
  let m2 := EncMsg (with_payload (e_core m1) p) (e_rcpts m1) in encm_encode X n2 m2 t' true = (s, Ok b') ->
  exists K, sealed_with X n m K iv /\ sealed_with X n2 m2 K iv.
Proof.
  intros X n m t n1 m1 b iv p n2 t' [n3 m3] b' LU HW HB HI H m2 H'.
  destruct (has_key_of X n m t n1 m1 b LU HW HB H) as (K & k & len & HK & HS & HH & _).
  exists K. split; [exact (sealed_iv _ _ _ _ _ _ _ _ _ _ HI H HK HS)|].
  assert (HI2 : header (e_core m2) IV (VBytes iv)).
  { apply encode_encrypts in H as (n4 & m4 & ct & HE & _ & HC). apply encm_encrypt_out in HE as (_ & o & HO). unfold m2. cbn [e_core]. rewrite HC, HO. exact HI. }
  assert (HW2 : Forall wraps (e_rcpts m2)).
  { destruct (first_settled X n m t n1 m1 b LU HW H) as (K0 & (HS0 & _) & _). exact HS0. }
  assert (HH2 : has_key K m2) by exact HH.
  destruct (same_content_key X n2 m2 t' n3 m3 b' m3 LU HW2 H' (AE_none _ _)) as (K2 & k2 & _ & HK2 & HS2 & _ & _ & _ & HA).
  assert (HO : one_content_key (e_rcpts m2)).
  { destruct HH2 as (HN & i & j & E). destruct (e_rcpts m2) as [|r l]; [discriminate E|]. cbn [map] in E. injection E as E1 E2. right. exists r, l, K. split; [reflexivity|]. split; [exact HN|]. split; [exact E1|].
    intros r' HR. apply (in_map rpayload) in HR. rewrite E2 in HR. apply in_app_or in HR as [HR|HR]; apply repeat_spec in HR; [right; exact HR|left; exact HR]. }
  specialize (HA HO). assert (E : K2 = K).
  { assert (HC : has_key K m3).
    { destruct (encode_content X LU _ _ _ _ _ _ _ (or_intror (ex_intro _ K HH2)) H') as [[->|[[B _]|(K3 & B & C)]]|(q & _ & B & _)].
      - exact HH2.
      - destruct (has_key_not_blank _ _ HH2 B).
      - rewrite (has_key_unique _ _ _ HH2 B). exact C.
      - destruct (has_key_not_blank _ _ HH2 B). }
    destruct HC as (_ & i & j & E). destruct (e_rcpts m3) as [|r l]; [discriminate E|]. inversion HA as [|? ? HA1 _]; subst. cbn [map] in E. injection E as E _. unfold rpayload in E. congruence. }
  subst K2. exact (sealed_iv _ _ _ _ _ _ _ _ _ _ HI2 H' HK2 HS2).
Qed.
Print Assumptions C120_wrapped_again_refuted.

(** ** Examples *)
Definition ex_with (p : bytes) : encmsg := EncMsg (with_payload (e_core (ex_enc [])) (Some p)) [ex_kw 0 (Some ex_sym) []; ex_agree_with 1 RAgreeKW (-29) []].
Example C120_random_keys_example : exists n1 m1 b n2 m1' b', Forall wraps (e_rcpts (ex_with (bs "one"))) /\ no_content_key (ex_with (bs "one")) /\ encm_encode toy 0 (ex_with (bs "one")) true true = ((n1, m1), Ok b) /\ encm_encode toy n1 (ex_with (bs "two")) true true = ((n2, m1'), Ok b') /\ new_key_bytes toy 0 n2 /\ ckey (e_core m1) <> ckey (e_core m1') /\ exists iv, header (e_core (ex_with (bs "one"))) IV (VBytes iv).
Proof.
  do 6 eexists. split; [constructor; [left; reflexivity|constructor; [right; reflexivity|constructor]]|]. split; [repeat (constructor; [reflexivity|]); constructor|]. split; [vm_compute; reflexivity|]. split; [vm_compute; reflexivity|].
  split; [intros i j len len' HL HL' HI HJ HD; apply toy_new_bytes; try assumption; lia|]. split; [vm_compute; discriminate|].
  eexists. right. split; vm_compute; reflexivity.
Qed.
Example C120_wrapped_again_example : exists n1 m1 b, encm_encode toy 0 (ex_with (bs "one")) true true = ((n1, m1), Ok b) /\ exists s b', encm_encode toy 7 (EncMsg (with_payload (e_core m1) (Some (bs "two"))) (e_rcpts m1)) true true = (s, Ok b') /\ b <> b'.
Proof. do 3 eexists. split; [vm_compute; reflexivity|]. do 2 eexists. split; [vm_compute; reflexivity|]. discriminate. Qed.
