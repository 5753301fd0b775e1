(** C105: the exceptions of [encode] for messages with recipients. *)
From Coq Require Import NArith ZArith Bool String.
From Coq Require Import Init.Byte List.
From Verif Require Import Bytes Value Registry Crypto Toy Keys Headers Messages Recipients SpecKeys SpecAlg SpecCheck SpecSend SpecIncomplete SpecIncomplete2
  IncProofs4 PropHdr PropMsg PropRcpt PropRcptTrip PropSend PropIncomplete.
Import ListNotations.

(** COSE_Encrypt and COSE_Mac with direct recipients: as for COSE_Encrypt0 and COSE_Mac0. *)
Theorem C105_encrypt_direct_exceptions_partial : forall X n m tag x, typed_key (e_core m) -> byte_iv_headers (e_core m) -> sendable_headers (e_core m) ->
  Forall (plain_recipient RDirect) (e_rcpts m) -> snd (encm_encode X n m tag true) = Err x -> is_cose_exception x = true \/ enc_refusal X (e_core m) x.
Proof. exact encm_direct_refused. Qed.
Print Assumptions C105_encrypt_direct_exceptions_partial.

Theorem C105_mac_direct_exceptions_partial : forall X n m rs tag x, typed_key (mm_core m) -> sendable_headers (mm_core m) -> mm_rcpts m = Some rs ->
  Forall (plain_recipient RDirect) rs -> snd (macm_encode X n m tag true) = Err x -> is_cose_exception x = true \/ mac_refusal (mm_core m) x.
Proof. exact macm_direct_refused. Qed.
Print Assumptions C105_mac_direct_exceptions_partial.

(** COSE_Encrypt with key wrap recipients: the message lacks something, or one of the recipients. *)
Theorem C105_encrypt_wrap_exceptions_partial : forall X n m tag x, byte_iv_headers (e_core m) -> sendable_headers (e_core m) ->
  Forall (plain_recipient RKeyWrap) (e_rcpts m) -> snd (encm_encode X n m tag true) = Err x ->
  is_cose_exception x = true \/ sealed_refusal X (e_core m) x \/ exists r, In r (e_rcpts m) /\ wrap_refusal X (r_core r) x.
Proof. exact encm_wrap_refused. Qed.
Print Assumptions C105_encrypt_wrap_exceptions_partial.

(** ** What goes wrong *)

Definition ex_unfilled : rcpt := Rcpt 0 RKeyWrap (Core [] None [(Algorithm, alg (-3))] [] false None [] (Some ex_sym)) (VStr []) [].
Definition ex_wide : rcpt := Rcpt 0 RKeyWrap (Core [] None [(Algorithm, alg (-5))] [] false (Some []) [] (Some ex_sym)) (VStr []) [].
Definition ex_keyless : rcpt := Rcpt 0 RKeyWrap (Core [] None [(Algorithm, alg (-40))] [] false (Some []) [] None) (VStr []) [].
Definition ex_unsealed (hs : dict) (rs : list rcpt) : encmsg := EncMsg (Core [] None hs [] false (Some (bs "hi")) [] None) rs.
Definition ex_iv : dict := [(Algorithm, alg 1); (IV, VBytes (repeat x07 12))].

(** Missing or unsuitable parts of recipients that raise something else than a COSE exception,
    with any primitives: the content key, a wrapping key of the right length, a public RSA key;
    and an algorithm of the message. *)
Theorem C105_recipient_exceptions_refuted : forall X n tag,
  snd (encm_encode X n (ex_unsealed ex_iv [ex_unfilled]) tag true) = Err TypeError /\
  snd (encm_encode X n (ex_unsealed ex_iv [ex_wide]) tag true) = Err ValueError /\
  snd (encm_encode X n (ex_unsealed ex_iv [ex_keyless]) tag true) = Err AttributeError /\
  snd (encm_encode X n (ex_unsealed [] [ex_kw 0 (Some ex_sym) []]) tag true) = Err AttributeError /\
  forallb (fun x => negb (is_cose_exception x)) [ValueError; AttributeError; TypeError] = true.
Proof.
  intros X n tag. do 4 (split; [destruct tag; vm_compute; reflexivity|]). reflexivity.
Qed.
Print Assumptions C105_recipient_exceptions_refuted.

(** ** The hypotheses are met *)

Lemma ex_sym_is_typed : typed ex_sym.
Proof. apply (ex_sym_permits (e_core (ex_enc [])) 1 [] eq_refl eq_refl). Qed.

Example C105_recipients_example :
  byte_iv_headers (e_core (ex_unsealed ex_iv [ex_unfilled; ex_wide; ex_keyless])) /\ sendable_headers (e_core (ex_unsealed ex_iv [ex_unfilled; ex_wide; ex_keyless])) /\
  Forall (plain_recipient RKeyWrap) [ex_unfilled; ex_wide; ex_keyless; ex_kw 0 (Some ex_sym) []] /\
  ~ wrapping (r_core ex_wide) /\ ~ wrapping (r_core ex_keyless) /\ wrapping (r_core ex_unfilled) /\
  Forall (plain_recipient RDirect) [ex_direct 0] /\ typed_key (e_core (ex_enc [ex_direct 0])) /\
  snd (encm_encode toy 0 (EncMsg (ex_plain [(Algorithm, alg 1)] (Some (bs "hi")) ex_based) [ex_direct 0]) true true) = Err TypeError /\
  snd (macm_encode toy 0 (MacMsg (ex_plain [] (Some (bs "hi")) ex_sym) VNone (Some [ex_direct 0])) true true) = Err AttributeError.
Proof.
  assert (HS : forall c, ckey c = Some ex_sym -> typed_key c) by (intros c E k HK; rewrite E in HK; injection HK as <-; exact ex_sym_is_typed).
  split; [|split; [split; reflexivity|]].
  { intros h v [<-|[<-|[]]] H; vm_compute in H; injection H as <-; eauto. }
  split.
  { repeat (apply Forall_cons; [split; [reflexivity|split; [reflexivity|split; [first [apply HS; reflexivity|intros k HK; discriminate HK]|split; reflexivity]]]|]). apply Forall_nil. }
  split.
  { intros [(z & m & k & b & HA & HM & HK & HSe & HL)|(z & k & (HA & _) & HI & _)]; vm_compute in HA; injection HA as <-.
    - injection HK as <-. vm_compute in HSe. injection HSe as <-. subst m. cbn in HM. destruct HM as [H|[H|[H|[]]]]; discriminate H.
    - cbn in HI. destruct HI as [H|[H|[H|[]]]]; discriminate H. }
  split.
  { intros [(z & m & k & b & _ & _ & HK & _)|(z & k & (_ & HK & _) & _)]; discriminate HK. }
  split.
  { left. exists (-3)%Z, 16, ex_sym. eexists. split; [reflexivity|]. split; [cbn; auto|]. split; [reflexivity|]. split; [vm_compute; reflexivity|reflexivity]. }
  split.
  { repeat (apply Forall_cons; [split; [reflexivity|split; [reflexivity|split; [first [apply HS; reflexivity|intros k HK; discriminate HK]|split; reflexivity]]]|]). apply Forall_nil. }
  split; [apply HS; reflexivity|]. split; vm_compute; reflexivity.
Qed.
