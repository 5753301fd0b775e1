(** Recipient lists, generated keys and recipient failures (C45-C49, C51, C58-C60, C72, C73). *)
From Coq Require Import NArith ZArith Bool String.
From Coq Require Import Init.Byte List.
From Verif Require Import Bytes Value Cbor SpecData Registry Crypto Toy Keys Algorithms Headers Messages Recipients
  SpecRegistry SpecKeys SpecCrypto SpecAlg SpecHdr SpecTrip SpecMsg SpecRcpt KeyTrip RcptProofs RcptProofs2 PropHdr PropMsg.
Import ListNotations.

(** ** Recipients used by the examples *)

Definition ex_core (hs : dict) (p : bytes) (k : option key) (lo : dict) : core :=
  Core [] None hs lo false (Some p) (bs "aad") k.
(** A recipient for A128KW with its key-encryption key. *)
Definition ex_kw (id : N) (k : option key) (subs : list rcpt) : rcpt :=
  Rcpt id RKeyWrap (ex_core [(Algorithm, alg (-3))] [] k []) (VStr []) subs.
Definition ex_direct (id : N) : rcpt := Rcpt id RDirect (ex_core [(Algorithm, alg (-6))] [] None []) (VStr []) [].
(** ECDH-ES+A128KW, without a key of its own, to the holder of [ex_pub]. *)
Definition ex_agree (id : N) : rcpt :=
  Rcpt id RAgreeKW (ex_core [(Algorithm, alg (-29))] [] None [(StaticKey, kval ex_pub)]) (VStr []) [].
Definition ex_enc (rs : list rcpt) : encmsg :=
  EncMsg (ex_core [(Algorithm, alg 1); (IV, VBytes (repeat x07 12))] (bs "hello") (Some ex_sym) []) rs.
Definition ex_mac (rs : list rcpt) : macmsg :=
  MacMsg (ex_core [(Algorithm, alg 5)] (bs "hello") (Some ex_sym) []) (VBytes []) (Some rs).

(** ** C45: assigning recipients *)

(** A second assignment adds to the list instead of replacing it, and an assignment with
    a bad element keeps the elements before it. *)
Theorem C45_appends_refuted : exists m rs m',
  enc_set_recipients m (Some (map Some rs)) = (m', Ok tt) /\ e_rcpts m' <> rs /\
  exists m'', enc_set_recipients m (Some (map Some rs ++ [None])) = (m'', Err TypeError) /\ e_rcpts m'' <> e_rcpts m.
Proof.
  exists (ex_enc [ex_direct 0]), [ex_direct 1]. eexists. split; [reflexivity|]. split; [discriminate|].
  eexists. split; [reflexivity|discriminate].
Qed.
Print Assumptions C45_appends_refuted.

(** What holds after any history of assignments: the list is what was assigned since the
    last None, in order. *)
Theorem C45_history_partial : forall m before ls,
  e_rcpts (assign m (map (fun l => Some (map Some l)) ls)) = e_rcpts m ++ concat ls /\
  e_rcpts (assign m (before ++ None :: map (fun l => Some (map Some l)) ls)) = concat ls.
Proof.
  intros m before ls. split; [apply assign_lists|]. rewrite assign_app. cbn [assign fold_left].
  change (fold_left _ (map _ ls) ?x) with (assign x (map (fun l => Some (map Some l)) ls)).
  rewrite assign_lists. reflexivity.
Qed.
Print Assumptions C45_history_partial.

(** An assignment succeeds iff all elements are recipients; it never touches the rest of
    the message. *)
Theorem C45_accepts_partial : forall m l,
  (snd (enc_set_recipients m (Some l)) = Ok tt <-> ~ In None l) /\
  (forall e, snd (enc_set_recipients m (Some l)) = Err e -> e = TypeError) /\
  e_core (fst (enc_set_recipients m (Some l))) = e_core m.
Proof.
  intros m l. unfold enc_set_recipients, set_recipients.
  assert (H : (snd (append_recipients (e_rcpts m) l) = Ok tt <-> ~ In None l) /\
    (forall e, snd (append_recipients (e_rcpts m) l) = Err e -> e = TypeError)).
  { generalize (e_rcpts m). induction l as [|[r|] l IH]; intros cur; cbn [append_recipients].
    - cbn [snd]. split; [|discriminate]. split; [intros _ []|reflexivity].
    - destruct (IH (cur ++ [r])) as [H1 H2]. split; [|exact H2]. rewrite H1. cbn [In]. split; [intros N [E|E]; [discriminate|auto]|tauto].
    - cbn [snd]. split; [|intros e E; injection E as <-; reflexivity]. split; [discriminate|]. intros N. elim N. left. reflexivity. }
  destruct (append_recipients (e_rcpts m) l) as [cur r]. cbn [fst snd e_core] in *. tauto.
Qed.
Print Assumptions C45_accepts_partial.

Example C45_example :
  e_rcpts (assign (ex_enc [ex_direct 0]) [Some [Some (ex_direct 1)]; None; Some [Some (ex_direct 2)]; Some [Some (ex_direct 3); Some (ex_direct 4)]])
    = [ex_direct 2; ex_direct 3; ex_direct 4].
Proof. reflexivity. Qed.

(** ** C46: nested recipients *)

(** No decoded recipient has nested recipients, whatever was received. *)
Theorem C46_nested_refuted : forall X e allow b,
  (forall m, decode X e allow (VBytes b) = Ok (MEnc m) -> Forall (fun r => r_subs r = []) (e_rcpts m)) /\
  (forall m rs, decode X e allow (VBytes b) = Ok (MMac m) -> mm_rcpts m = Some rs -> Forall (fun r => r_subs r = []) rs).
Proof.
  intros X e allow b. split.
  - intros m H. apply enc_decoded in H as (obj & c & rest & _ & _ & _ & o & HO & ->). eapply recipients_from_subs. exact HO.
  - intros m rs H HR. apply mac_decoded in H as (obj & c & t & rest & _ & _ & _ & _ & HO). rewrite HR in HO.
    apply recipients_from_subs in HO. exact HO.
Qed.
Print Assumptions C46_nested_refuted.

(** A layered message that the library encodes and that decodes without its nested
    recipient. *)
Example C46_example : exists s b m',
  encm_encode toy 0 (ex_enc [ex_kw 0 (Some ex_sym) [ex_kw 1 (Some ex_sym) []]]) true true = (s, Ok b) /\
  decode toy None true (VBytes b) = Ok (MEnc m') /\ length (e_rcpts m') = 1 /\ Forall (fun r => r_subs r = []) (e_rcpts m').
Proof.
  do 3 eexists. split; [vm_compute; reflexivity|]. split; [vm_compute; reflexivity|]. split; [reflexivity|]. repeat constructor.
Qed.

(** ** C47: looking for a recipient *)

(** A nested recipient that is present is not found when a later sibling of its parent
    has nested recipients as well. *)
Theorem C47_missed_refuted : exists t rs, in_forest t rs /\ has_recipient t rs = false.
Proof.
  exists 2%N, [ex_kw 0 None [ex_direct 2]; ex_kw 1 None [ex_direct 3]]. split; [|reflexivity].
  eapply (IF_below _ (ex_kw 0 None [ex_direct 2])); [left; reflexivity|]. eapply IF_here; [left; reflexivity|reflexivity].
Qed.
Print Assumptions C47_missed_refuted.

(** Only recipients of the forest are found; all top-level ones are. *)
Theorem C47_sound_partial : forall t rs, has_recipient t rs = true -> in_forest t rs.
Proof. exact has_recipient_sound. Qed.
Print Assumptions C47_sound_partial.

Theorem C47_top_level_partial : forall t rs r, In r rs -> r_id r = t -> has_recipient t rs = true.
Proof. intros t rs r HI HE. rewrite has_recipient_search. eapply search_top; eassumption. Qed.
Print Assumptions C47_top_level_partial.

(** Which ones are found: the top-level ones, and those found below the last recipient
    that has nested ones. *)
Theorem C47_found_exactly_partial : forall t rs,
  has_recipient t rs = true <->
  (exists r, In r rs /\ r_id r = t) \/
  (exists before r after, rs = before ++ r :: after /\ r_subs r <> [] /\ (forall x, In x after -> r_subs x = []) /\
     has_recipient t (r_subs r) = true).
Proof. exact search_iff. Qed.
Print Assumptions C47_found_exactly_partial.

(** In a forest where at each level at most one recipient has nested ones, the search is
    exact. *)
Theorem C47_chains_partial : forall t rs, chain rs -> (has_recipient t rs = true <-> in_forest t rs).
Proof. exact has_recipient_chain. Qed.
Print Assumptions C47_chains_partial.

(** Decrypting for a recipient that is not in the message's tree fails and leaves the
    message as it was. *)
Theorem C47_foreign_recipient_partial : forall X m r, ~ in_forest (r_id r) (e_rcpts m) ->
  fst (encm_decrypt X m r) = m /\ exists e, snd (encm_decrypt X m r) = Err e.
Proof.
  intros X m r HN. unfold encm_decrypt. destruct (get_attr (e_core m) Algorithm) as [t|e]; [|cbn [fst snd]; eauto].
  destruct (has_recipient (r_id r) (e_rcpts m)) eqn:E; [elim HN; apply has_recipient_sound; exact E|]. cbn [negb fst snd]. eauto.
Qed.
Print Assumptions C47_foreign_recipient_partial.

(** The recipients of a received message are pairwise different objects, so finding one
    of them never means finding another. *)
Theorem C47_received_distinct_partial : forall X e allow b,
  (forall m, decode X e allow (VBytes b) = Ok (MEnc m) -> NoDup (map r_id (e_rcpts m))) /\
  (forall m rs, decode X e allow (VBytes b) = Ok (MMac m) -> mm_rcpts m = Some rs -> NoDup (map r_id rs)).
Proof.
  intros X e allow b. split.
  - intros m H. apply enc_decoded in H as (obj & c & rest & _ & _ & _ & o & HO & ->). destruct o as [rs|]; [|constructor].
    eapply recipients_from_distinct. exact HO.
  - intros m rs H HR. apply mac_decoded in H as (obj & c & t & rest & _ & _ & _ & _ & HO). rewrite HR in HO.
    eapply recipients_from_distinct. exact HO.
Qed.
Print Assumptions C47_received_distinct_partial.

Example C47_foreign_example :
  ~ in_forest 7 (e_rcpts (ex_enc [ex_kw 0 (Some ex_sym) []])) /\
  (exists s b m', encm_encode toy 0 (ex_enc [ex_kw 0 (Some ex_sym) []; ex_kw 1 (Some ex_sym) []]) true true = (s, Ok b) /\
    decode toy None true (VBytes b) = Ok (MEnc m') /\ map r_id (e_rcpts m') = [0; 1]%N).
Proof.
  split.
  - intros H. inversion H as [r rs HI E|r rs HI E]; cbn [In e_rcpts ex_enc] in HI; destruct HI as [<-|[]]; [discriminate E|].
    inversion E as [r' rs' HI|r' rs' HI]; destruct HI.
  - do 3 eexists. split; [vm_compute; reflexivity|]. split; [vm_compute; reflexivity|]. reflexivity.
Qed.

Example C47_example :
  chain [ex_kw 0 None [ex_direct 2; ex_kw 5 None [ex_direct 6]]; ex_direct 1] /\
  in_forest 6 [ex_kw 0 None [ex_direct 2; ex_kw 5 None [ex_direct 6]]; ex_direct 1] /\
  has_recipient 6 [ex_kw 0 None [ex_direct 2; ex_kw 5 None [ex_direct 6]]; ex_direct 1] = true /\
  has_recipient 7 [ex_kw 0 None [ex_direct 2; ex_kw 5 None [ex_direct 6]]; ex_direct 1] = false.
Proof.
  repeat split.
  - apply (Ch_below [] (ex_kw 0 None [ex_direct 2; ex_kw 5 None [ex_direct 6]]) [ex_direct 1]); [intros x []|intros x [<-|[]]; reflexivity|].
    apply (Ch_below [ex_direct 2] (ex_kw 5 None [ex_direct 6]) []); [intros x [<-|[]]; reflexivity|intros x []|].
    apply Ch_flat. intros x [<-|[]]. reflexivity.
  - eapply IF_below; [left; reflexivity|]. eapply IF_below; [right; left; reflexivity|]. eapply IF_here; [left; reflexivity|reflexivity].
Qed.

(** ** C48: mixing rules *)

Theorem C48_mixing : forall rs, verify_recipients rs = Ok tt <-> may_mix rs.
Proof. exact verify_mix. Qed.
Print Assumptions C48_mixing.
Theorem C48_refused : forall rs e, verify_recipients rs = Err e -> e = CoseException.
Proof. exact verify_refused. Qed.
Print Assumptions C48_refused.

(** No message with a forbidden mix is encrypted, decrypted or MACed. *)
Theorem C48_messages : forall X n,
  (forall m tag b, snd (encm_encode X n m tag true) = Ok b -> may_mix (e_rcpts m)) /\
  (forall m r p, snd (encm_decrypt X m r) = Ok p -> may_mix (e_rcpts m)) /\
  (forall m rs tag b, mm_rcpts m = Some rs -> snd (macm_encode X n m tag true) = Ok b -> may_mix rs).
Proof. exact mixed_refused. Qed.
Print Assumptions C48_messages.

Example C48_example : may_mix [ex_direct 0; ex_direct 1; ex_direct 2] /\ ~ may_mix [ex_direct 0; ex_kw 1 None []] /\
  may_mix [ex_kw 0 None []; ex_agree 1] /\ exists b, snd (encm_encode toy 0 (ex_enc [ex_kw 0 (Some ex_sym) []; ex_agree 1]) true true) = Ok b.
Proof.
  split; [rewrite <- C48_mixing; reflexivity|]. split; [rewrite <- C48_mixing; discriminate|].
  split; [rewrite <- C48_mixing; reflexivity|]. eexists. vm_compute. reflexivity.
Qed.

(** ** C49: malformed recipients *)

(** A message with an empty or truncated recipient decodes like the message without any
    recipients. *)
Theorem C49_dropped_refuted : forall X e allow b b0 x y z l,
  loads_bytes b0 = Ok (VTag 96 (VList [x; y; z])) ->
  (exists first, (first = [] \/ first = [VBytes []]) /\
     loads_bytes b = Ok (VTag 96 (VList [x; y; z; VList (VList first :: l)]))) ->
  decode X e allow (VBytes b) = decode X e allow (VBytes b0).
Proof.
  intros X e allow b b0 x y z l H0 (first & HF & H). eapply decode_swallow; [exact H0|exact H| |].
  - cbn [py_iter bind create_all]. destruct HF as [->| ->]; reflexivity.
  - reflexivity.
Qed.
Print Assumptions C49_dropped_refuted.
Example C49_dropped_example : exists x y z first l m,
  loads_bytes [xd8; x60; x83; x40; xa1; x01; x01; x41; x07] = Ok (VTag 96 (VList [x; y; z])) /\
  loads_bytes [xd8; x60; x84; x40; xa1; x01; x01; x41; x07; x82; x81; x40; x83; x40; xa1; x01; x22; x41; x09] =
    Ok (VTag 96 (VList [x; y; z; VList (VList first :: l)])) /\ (first = [] \/ first = [VBytes []]) /\ l <> [] /\
  decode toy None true (VBytes [xd8; x60; x84; x40; xa1; x01; x01; x41; x07; x82; x81; x40; x83; x40; xa1; x01; x22; x41; x09]) = Ok (MEnc m) /\
  e_rcpts m = [].
Proof.
  do 6 eexists. split; [vm_compute; reflexivity|]. split; [vm_compute; reflexivity|]. split; [right; reflexivity|].
  split; [discriminate|]. split; [vm_compute; reflexivity|reflexivity].
Qed.

(** What holds: recipients are kept all or none, in order, each read from its own
    element. *)
Theorem C49_all_or_none_partial : forall X e allow b,
  (forall m, decode X e allow (VBytes b) = Ok (MEnc m) -> e_rcpts m <> [] ->
    exists x y z l rest, loads_bytes b = Ok (VTag 96 (VList (x :: y :: z :: l :: rest))) /\
      exists vs, py_iter l = Ok vs /\ Forall2 (fun v r => create_recipient X allow (VStr (bs "Enc_Recipient")) (r_id r) v = Ok r) vs (e_rcpts m)) /\
  (forall m rs, decode X e allow (VBytes b) = Ok (MMac m) -> mm_rcpts m = Some rs ->
    exists x y z t l rest, loads_bytes b = Ok (VTag 97 (VList (x :: y :: z :: t :: l :: rest))) /\
      exists vs, py_iter l = Ok vs /\ Forall2 (fun v r => create_recipient X allow (VStr (bs "Mac_Recipient")) (r_id r) v = Ok r) vs rs).
Proof. exact all_or_none. Qed.
Print Assumptions C49_all_or_none_partial.

(** A recipient that is not an array with the right fields is never read as one, and its
    class fits the algorithm it declares. *)
Theorem C49_well_formed_partial : forall X allow ctx id v r, create_recipient X allow ctx id v = Ok r ->
  exists p u w rest, v = VList (VBytes p :: VDict u :: w :: rest) /\
    (p = [] \/ exists d, loads_bytes p = Ok (VDict d)) /\ (w = VNone \/ exists b, w = VBytes b) /\
    exists z, In z (class_algs (r_class r)) /\
      (dget (phdr (r_core r)) Algorithm = Some (alg z) \/ dget (uhdr (r_core r)) Algorithm = Some (alg z)).
Proof. exact recipient_well_formed. Qed.
Print Assumptions C49_well_formed_partial.

Example C49_example : exists s b m',
  encm_encode toy 0 (ex_enc [ex_kw 0 (Some ex_sym) []; ex_agree 1]) true true = (s, Ok b) /\
  decode toy None true (VBytes b) = Ok (MEnc m') /\ map r_class (e_rcpts m') = [RKeyWrap; RAgreeKW].
Proof. do 3 eexists. split; [vm_compute; reflexivity|]. split; [vm_compute; reflexivity|]. reflexivity. Qed.

(** ** C51: generated ephemeral keys *)

(** A key-agreement recipient without a key: encoding it generates one and keeps its
    private part; the header that is emitted holds the other parameters and nothing that
    could be read as a private part, under any spelling. *)
Theorem C51_generated_key_stays : forall X n r n' r' v,
  r_class r = RAgree \/ r_class r = RAgreeKW -> ckey (r_core r) = None ->
  rcpt_encode X n r = ((n', r'), Ok v) ->
  exists k pub p w rest, ckey (r_core r') = Some k /\ k_cls k = KEC2 /\ has k EC2KpD /\
    v = VList (p :: VDict (dset (uhdr (r_core r)) EphemeralKey (VDict pub)) :: w :: rest) /\
    dget pub (VClass EC2KpD) = None /\
    (forall q, q <> EC2KpD -> dget pub (VClass q) = param k q) /\
    (forall a x nm, In (a, x) pub -> In (EC2KpD, nm) (registered FEC2) -> ~ spells EC2KpD nm a).
Proof.
  intros X n r n' r' v HC HK H. pose proof (encode_sends X _ _ _ _ _ H HK HC) as (k & HK' & HP & HKC & HD & HU & _).
  apply encode_emits in H as (p & w & tail & -> & _). rewrite HU.
  destruct (public_hides X k HP HKC) as (H1 & H2 & H3).
  exists k, (k_store (public_part k)), (VBytes p), (VBytes w), tail. repeat (split; [first [reflexivity|assumption]|]). assumption.
Qed.
Print Assumptions C51_generated_key_stays.

(** The same for [encrypt], which message encoding calls first. After that, encoding uses
    the same key and emits the same header. *)
Theorem C51_encrypt_then_encode : forall X n r r1 w1 n2 n' r' v,
  r_class r = RAgreeKW -> ckey (r_core r) = None ->
  rcpt_encrypt X n r = (r1, Ok w1) -> rcpt_encode X n2 r1 = ((n', r'), Ok v) ->
  exists k pub p w rest, ckey (r_core r1) = Some k /\ r_core r' = r_core r1 /\
    k_cls k = KEC2 /\ has k EC2KpD /\
    v = VList (p :: VDict (dset (uhdr (r_core r)) EphemeralKey (VDict pub)) :: w :: rest) /\
    dget pub (VClass EC2KpD) = None /\
    (forall q, q <> EC2KpD -> dget pub (VClass q) = param k q) /\
    (forall a x nm, In (a, x) pub -> In (EC2KpD, nm) (registered FEC2) -> ~ spells EC2KpD nm a).
Proof.
  intros X n [id rc c ctx subs] r1 w1 n2 n' r' v HC HK H HE. cbn [r_class r_core] in *. subst rc. cbn [rcpt_encrypt] in H.
  destruct (kakw_encrypt X n c) as [c' x] eqn:EK. cbn [r_with] in H. injection H as <- ->.
  apply kakw_encrypt_state in EK as [[H _]|(_ & pk & H)]; [congruence|]. apply setup_sent in H as (k & HK' & HP & HKC & HD & HU & _).
  apply encode_emits in HE as (p & w & tail & -> & _ & _ & _ & _ & HE). cbn [r_class r_core] in HE.
  apply kakw_encrypt_state in HE as [[_ HE]|[HE _]]; [|congruence]. rewrite HE, HU.
  destruct (public_hides X k HP HKC) as (H1 & H2 & H3).
  exists k, (k_store (public_part k)), (VBytes p), (VBytes w), tail. repeat (split; [first [reflexivity|assumption]|]). assumption.
Qed.
Print Assumptions C51_encrypt_then_encode.

Definition ex_preset (r : rcpt) (b : bytes) : rcpt := r_with r (with_payload (r_core r) (Some b)).
Example C51_example : exists r1 w1 n' r' v,
  rcpt_encrypt toy 3 (ex_preset (ex_agree 0) (repeat x11 16)) = (r1, Ok w1) /\ rcpt_encode toy 4 r1 = ((n', r'), Ok v).
Proof. do 5 eexists. split; [vm_compute; reflexivity|]. vm_compute. reflexivity. Qed.

(** ** C58: COSE_Mac with key wrap *)

(** No such message can be encoded. *)
Theorem C58_mac_key_wrap_refuted : forall X n m rs tag, mm_rcpts m = Some rs -> key_wrapped rs ->
  exists e, snd (macm_encode X n m tag true) = Err e.
Proof. exact macm_encode_wrapped. Qed.
Print Assumptions C58_mac_key_wrap_refuted.

Example C58_example : key_wrapped [ex_kw 0 (Some ex_sym) []] /\
  snd (macm_encode toy 0 (ex_mac [ex_kw 0 (Some ex_sym) []]) true true) = Err AttributeError /\
  snd (macm_encode toy 0 (MacMsg (ex_core [(Algorithm, alg 14)] (bs "hello") (Some ex_sym) []) (VBytes []) (Some [ex_kw 0 (Some ex_sym) []])) true true) = Err NameError.
Proof.
  split; [|split; vm_compute; reflexivity]. split; [discriminate|]. intros r [<-|[]]. left. reflexivity.
Qed.

(** ** C59: layered key wrap *)

(** A key-wrap recipient without a key of its own can neither wrap nor unwrap, whatever
    recipients are nested in it. *)
Theorem C59_layered_refuted : forall X n r, r_class r = RKeyWrap -> ckey (r_core r) = None ->
  (exists e, snd (rcpt_encrypt X n r) = Err e) /\ (exists e, snd (rcpt_encode X n r) = Err e) /\
  (exists e, rcpt_decrypt X r = Err e).
Proof.
  intros X n [id rc c ctx subs] HC HK. cbn [r_class r_core] in *. subst rc. split; [|split].
  - cbn [rcpt_encrypt snd]. apply kw_no_key. exact HK.
  - rewrite encode_kw. destruct (kw_no_key X n c subs HK) as [e ->].
    destruct (phdr_encoded c); cbn [bind snd]; eauto.
  - apply kw_no_key_decrypt. exact HK.
Qed.
Print Assumptions C59_layered_refuted.
Example C59_example : layered (ex_kw 0 None [ex_kw 1 (Some ex_sym) []]) /\
  snd (rcpt_encrypt toy 0 (ex_kw 0 None [ex_kw 1 (Some ex_sym) []])) = Err TypeError /\
  exists w, snd (rcpt_encrypt toy 0 (ex_preset (ex_kw 0 (Some ex_sym) []) (repeat x11 16))) = Ok w.
Proof. split; [split; [reflexivity|split; [reflexivity|discriminate]]|]. split; [vm_compute; reflexivity|]. eexists. vm_compute. reflexivity. Qed.

(** ** C60: direct key agreement without a key *)

Theorem C60_direct_ephemeral_refuted : forall X n m r tag, e_rcpts m = [r] -> r_class r = RAgree ->
  ckey (r_core r) = None -> exists e, snd (encm_encode X n m tag true) = Err e.
Proof. exact encm_agree_no_key. Qed.
Print Assumptions C60_direct_ephemeral_refuted.

(** Encoding the recipient alone does generate a key. *)
Definition ex_agree_direct (id : N) (k : option key) : rcpt :=
  Rcpt id RAgree (ex_core [(Algorithm, alg (-25))] [] k [(StaticKey, kval (Key KEC2 (ddel (k_store ex_pub) (VClass KpAlg)) []))]) (VStr []) [].
Example C60_example :
  snd (encm_encode toy 0 (ex_enc [ex_agree_direct 0 None]) true true) = Err CoseIllegalKeyOps /\
  exists s v, rcpt_encode toy 0 (ex_agree_direct 0 None) = (s, Ok v).
Proof. split; [vm_compute; reflexivity|]. do 2 eexists. vm_compute. reflexivity. Qed.

(** ** C72: restrictions of a key-encryption key *)

(** AES key wrap reads the secret of the key-encryption key and nothing else: its
    algorithm and key_ops restrictions have no effect. *)
Theorem C72_restrictions_ignored_refuted : forall X n c subs ctx id k k' z,
  In z [-3; -4; -5]%Z -> get_attr c Algorithm = Ok (alg z) -> prop_get k PK = prop_get k' PK ->
  kw_encrypt X n (with_key c (Some k)) subs = kw_encrypt X n (with_key c (Some k')) subs /\
  rcpt_decrypt X (Rcpt id RKeyWrap (with_key c (Some k)) ctx subs) = rcpt_decrypt X (Rcpt id RKeyWrap (with_key c (Some k')) ctx subs).
Proof.
  intros X n c subs ctx id k k' z HZ HA HP.
  change (get_attr c Algorithm) with (get_attr (with_key c (Some k)) Algorithm) in HA.
  change (get_attr (with_key c (Some k)) Algorithm) with (get_attr (with_key c (Some k')) Algorithm) in HA.
  split.
  - unfold kw_encrypt. change (get_attr (with_key c (Some k)) Algorithm) with (get_attr (with_key c (Some k')) Algorithm). rewrite HA.
    cbn [bind phdr with_key ckey payload kw_kek_encrypt]. rewrite HP.
    assert (E : alg_in (alg z) aes_kw = Ok true) by (cbn in HZ; destruct HZ as [<-|[<-|[<-|[]]]]; reflexivity).
    rewrite E. reflexivity.
  - cbn [rcpt_decrypt]. change (get_attr (with_key c (Some k)) Algorithm) with (get_attr (with_key c (Some k')) Algorithm). rewrite HA.
    cbn [bind phdr with_key ckey payload]. rewrite HP.
    assert (E : alg_in (alg z) aes_kw = Ok true) by (cbn in HZ; destruct HZ as [<-|[<-|[<-|[]]]]; reflexivity).
    rewrite E. reflexivity.
Qed.
Print Assumptions C72_restrictions_ignored_refuted.

(** A key for AES-GCM whose only operation is MAC creation wraps keys. *)
Definition ex_mac_only : key :=
  Key KSym [(VClass KpKty, KtySymmetric); (VClass KpAlg, alg 1); (VClass KpKeyOps, VList [MacCreateOp]); (VClass SymKpK, VBytes (repeat x2a 16))] [].
Example C72_example : ~ alg_ok ex_mac_only (Cls FAlg (-3)) /\ ~ ops_ok ex_mac_only [Cls FOps 5; Cls FOps 3] /\
  exists s b, encm_encode toy 0 (ex_enc [ex_kw 0 (Some ex_mac_only) []]) true true = (s, Ok b).
Proof.
  split; [intros [H|[H|(v & H & E)]]; [discriminate|discriminate|injection H as <-; discriminate]|].
  split; [|do 2 eexists; vm_compute; reflexivity].
  intros [H|[H|(l & o & H & H1 & H2)]]; try discriminate.
  injection H as <-. destruct H2 as [H2|[]]. injection H2 as <-. destruct H1 as [H1|[H1|[]]]; discriminate.
Qed.

(** The other key-wrapping algorithm, RSA-OAEP, does check the key. *)
Theorem C72_oaep_partial : forall X n c subs k z w, In z [-40; -41; -42]%Z -> get_attr c Algorithm = Ok (alg z) -> ckey c = Some k ->
  (forall v, param k KpKeyOps = Some v -> exists l, v = VList l) ->
  kw_encrypt X n c subs = Ok w -> k_cls k = KRSA /\ alg_ok k (Cls FAlg z) /\ ops_ok k [Cls FOps 5; Cls FOps 3].
Proof. exact oaep_checks. Qed.
Print Assumptions C72_oaep_partial.

(** ** C73: ephemeral keys given by the caller *)

(** A caller who puts a whole key pair into the EphemeralKey header sends the private
    part. *)
Definition ex_whole : key :=
  Key KEC2 [(VClass KpKty, KtyEC2); (VClass EC2KpCurve, VClass (Cls FCrv 1)); (VClass EC2KpX, VBytes (repeat x00 31 ++ [x07]));
            (VClass EC2KpY, VBytes (repeat x00 31 ++ [x08])); (VClass EC2KpD, VBytes [x07])] [].
Theorem C73_private_part_sent_refuted : exists r k d s b m' r' k',
  r_class r = RAgreeKW /\ dget (uhdr (r_core r)) EphemeralKey = Some (kval k) /\ bytes_param k EC2KpD d /\
  encm_encode toy 0 (ex_enc [r]) true true = (s, Ok b) /\
  decode toy None true (VBytes b) = Ok (MEnc m') /\ e_rcpts m' = [r'] /\
  dget (uhdr (r_core r')) EphemeralKey = Some (kval k') /\ bytes_param k' EC2KpD d.
Proof.
  exists (Rcpt 0 RAgreeKW (ex_core [(Algorithm, alg (-29)); (EphemeralKey, kval ex_whole)] (repeat x11 16) (Some ex_whole) [(StaticKey, kval ex_pub)]) (VStr []) []).
  exists ex_whole, [x07]. do 5 eexists. do 3 (split; [reflexivity|]). split; [vm_compute; reflexivity|]. split; [vm_compute; reflexivity|].
  split; [reflexivity|]. split; [apply (f_equal Some); instantiate (1 := Key _ _ _); reflexivity|vm_compute; reflexivity].
Qed.
Print Assumptions C73_private_part_sent_refuted.
