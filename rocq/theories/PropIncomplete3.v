(** C105: the exceptions of [encode] for messages with recipients of any class. *)
From Coq Require Import NArith ZArith Bool String.
From Coq Require Import Init.Byte List.
From Verif Require Import Bytes Value Registry Crypto SpecGen Toy Keys Headers Messages Recipients SpecKeys SpecAlg SpecCheck SpecSend SpecIncomplete SpecIncomplete3
  GenProofs IncProofs5 PropHdr PropMsg PropRcpt PropRcptTrip PropSend PropIncomplete PropIncomplete2.
Import ListNotations.

(** COSE_Encrypt with direct, key wrap and key agreement recipients in any number, mixture
    and depth. *)
Theorem C105_encrypt_exceptions_partial : forall X n m tag x, law_ec_gen X -> typed_key (e_core m) -> byte_iv_headers (e_core m) -> sendable_headers (e_core m) ->
  Forall any_recipient (e_rcpts m) -> snd (encm_encode X n m tag true) = Err x -> is_cose_exception x = true \/ other_exception X x.
Proof. exact encm_exceptions. Qed.
Print Assumptions C105_encrypt_exceptions_partial.

(** COSE_Mac: one more, the undefined name of C58. *)
Theorem C105_mac_exceptions_partial : forall X n m rs tag x, law_ec_gen X -> typed_key (mm_core m) -> sendable_headers (mm_core m) -> mm_rcpts m = Some rs ->
  Forall any_recipient rs -> snd (macm_encode X n m tag true) = Err x -> is_cose_exception x = true \/ other_exception X x \/ x = NameError.
Proof. exact macm_exceptions. Qed.
Print Assumptions C105_mac_exceptions_partial.

(** ** What goes wrong *)

(** Recipients with key agreement: without a content key to wrap, with something else than a
    key to agree with, and with a party nonce that is not a byte string. *)
Definition ex_agreeing (id : N) (hs lo : dict) (p : option bytes) : rcpt :=
  Rcpt id RAgreeKW (Core [] None ((Algorithm, alg (-34)) :: hs) lo false p [] (Some ex_own)) (VStr []) [].
Definition ex_with_peer : dict := [(StaticKey, kval ex_peer)].
Definition ex_agree_unfilled : rcpt := ex_agreeing 0 [] ex_with_peer None.
Definition ex_agree_bytes : rcpt := ex_agreeing 0 [] [(StaticKey, VBytes (bs "key"))] (Some []).
Definition ex_agree_nonce : rcpt := ex_agreeing 0 [(PartyUNonce, alg 1)] ex_with_peer (Some []).

Definition ex_cbc_mac (rs : list rcpt) : macmsg := MacMsg (Core [] None [(Algorithm, alg 14)] [] false (Some (bs "hi")) [] None) (VBytes []) (Some rs).

Theorem C105_agreement_exceptions_refuted : exists X, law_ec_gen X /\ forall tag,
  snd (encm_encode X 0 (ex_unsealed ex_iv [ex_agree_unfilled]) tag true) = Err TypeError /\
  snd (encm_encode X 0 (ex_unsealed ex_iv [ex_agree_bytes]) tag true) = Err AttributeError /\
  snd (encm_encode X 0 (ex_unsealed ex_iv [ex_agree_nonce]) tag true) = Err CBOREncodeTypeError /\
  snd (macm_encode X 0 (ex_cbc_mac [ex_agree 0]) tag true) = Err NameError /\
  forallb (fun x => negb (is_cose_exception x)) [TypeError; AttributeError; CBOREncodeTypeError; NameError] = true.
Proof.
  exists toy. split; [exact toy_ec_gen|]. intros tag. do 4 (split; [destruct tag; vm_compute; reflexivity|]). reflexivity.
Qed.
Print Assumptions C105_agreement_exceptions_refuted.

(** ** The hypotheses are met *)

Lemma ex_ec2_typed : Forall typed [ex_pub; ex_peer; ex_own].
Proof.
  repeat (apply Forall_cons; [split; [intros v H; vm_compute in H; (discriminate H || (injection H as <-; eexists; reflexivity))|];
    split; [intros v H; vm_compute in H; (discriminate H || (injection H as <-; eexists; reflexivity))|]; split; [intros v H; discriminate H|];
    split; [intros e []|]; split; [eexists; split; [reflexivity|discriminate]|]; split; [eexists; split; [reflexivity|discriminate]|eexists; reflexivity]|]). apply Forall_nil.
Qed.

Example C105_any_recipient_example :
  Forall any_recipient [ex_direct 0; ex_kw 0 (Some ex_sym) []; ex_kw 0 (Some ex_sym) [ex_agree 1]; ex_agree 1; ex_agree_with 2 RAgree (-25) []; ex_unfilled; ex_agree_unfilled; ex_agree_bytes; ex_agree_nonce] /\
  byte_iv_headers (e_core (ex_enc [])) /\ sendable_headers (e_core (ex_enc [])) /\ typed_key (e_core (ex_enc [])) /\
  (exists b, snd (encm_encode toy 0 (ex_enc [ex_kw 0 (Some ex_sym) []; ex_agree 1]) true true) = Ok b) /\
  (exists b, snd (encm_encode toy 0 (ex_enc [ex_kw 0 (Some ex_sym) [ex_agree 1]]) true true) = Ok b) /\
  (exists x, snd (encm_encode toy 0 (ex_enc [ex_direct 0; ex_agree 1]) true true) = Err x /\ is_cose_exception x = true).
Proof.
  pose proof (proj1 (Forall_forall _ _) ex_ec2_typed ex_pub ltac:(cbn; auto)) as HP. pose proof (proj1 (Forall_forall _ _) ex_ec2_typed ex_peer ltac:(cbn; auto)) as HE.
  pose proof (proj1 (Forall_forall _ _) ex_ec2_typed ex_own ltac:(cbn; auto)) as HO. pose proof ex_sym_is_typed as HS.
  assert (HA : forall r, Forall any_recipient (r_subs r) -> (forall k, ckey (r_core r) = Some k -> In k [ex_sym; ex_own]) -> sendable_headers (r_core r) ->
    (forall p, dget (local (r_core r)) StaticKey = Some (kval p) -> In p [ex_pub; ex_peer]) -> any_recipient r).
  { intros r H1 H2 H3 H4. constructor; [|exact H3| |exact H1].
    - intros k HK. destruct (H2 k HK) as [<-|[<-|[]]]; assumption.
    - intros p HK. destruct (H4 p HK) as [<-|[<-|[]]]; assumption. }
  assert (HA1 : any_recipient (ex_agree 1)).
  { apply HA; [constructor|discriminate|split; reflexivity|]. intros [kc ks ke] H. vm_compute in H. injection H as <- <- <-. left. reflexivity. }
  split.
  { repeat (apply Forall_cons; [apply HA; [first [apply Forall_nil|apply Forall_cons; [exact HA1|apply Forall_nil]]
      |intros k H; vm_compute in H; first [discriminate H|injection H as <-; first [left; reflexivity|right; left; reflexivity]]|split; reflexivity
      |intros [kc ks ke] H; vm_compute in H; first [discriminate H|injection H as <- <- <-; first [left; reflexivity|right; left; reflexivity]]]|]). apply Forall_nil. }
  split; [intros h v [<-|[<-|[]]] H; vm_compute in H; injection H as <-; eauto|]. split; [split; reflexivity|].
  split; [intros k H; injection H as <-; exact HS|]. do 2 (split; [eexists; vm_compute; reflexivity|]). eexists. split; [vm_compute; reflexivity|reflexivity].
Qed.
