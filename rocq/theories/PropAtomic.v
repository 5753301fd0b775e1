(** C112: a call that raises leaves its object as it was.

    Vocabulary: SpecAtomic.v ([key_call], [half_done], [own_key], [prepared]), SpecMapping.v
    ([reachable], [coordinate]), SpecLife.v ([core_kept]). *)
From Coq Require Import NArith ZArith Bool String.
From Coq Require Import Init.Byte List.
From Verif Require Import Bytes Value Cbor Registry Crypto Toy Keys Algorithms Headers Messages Recipients SpecRegistry SpecKeys SpecMapping SpecAlg SpecMsg SpecRcptTrip SpecLife SpecAtomic RcptProofs
  AtomicProofs PropKeys PropHdr PropMsg PropRcpt PropRcptTrip PropMapping.
Import ListNotations.

(** ** Keys *)

(** Whatever was done to the key before: a call that raises changes nothing, with three
    exceptions ([half_done]). *)
Theorem C112_keys_partial : forall X k o k' e, reachable X k -> key_call k o = (k', Err e) -> k' = k \/ half_done k o k'.
Proof. exact key_call_err. Qed.
Print Assumptions C112_keys_partial.

(** So every assignment to an attribute other than [key_ops], and to an item, either works or
    changes nothing. *)
Theorem C112_assignments : forall k k' e,
  (forall p v, p <> PKeyOps -> key_call k (KSetProp p v) = (k', Err e) -> k' = k) /\
  (forall a v, key_call k (KSetItem a v) = (k', Err e) -> k' = k).
Proof.
  intros k k' e. split.
  - intros p v HP H. apply prop_set_err in H as [->|H]; [reflexivity|]. inversion H; subst; [congruence|]. destruct H0; discriminate.
  - intros a v H. exact (attempt_err _ _ _ _ H).
Qed.
Print Assumptions C112_assignments.

(** The three exceptions. For every key and every update whose last entry is refused, the
    entries before it stay ... *)
Theorem C112_update_refuted : forall k d a v d' k1 e, key_call k (KUpdate d) = (k1, Ok tt) ->
  key_call k1 (KSetItem a v) = (k1, Err e) -> key_call k (KUpdate (d ++ (a, v) :: d')) = (k1, Err e).
Proof.
  intros k d. revert k. cbn [key_call]. induction d as [|[b w] d IH]; intros k a v d' k1 e H1 H2; cbn [app item_update] in *.
  - injection H1 as ->. rewrite H2. reflexivity.
  - destruct (item_set k b w) as [k2 [u|x]]; [|discriminate]. exact (IH _ _ _ _ _ _ H1 H2).
Qed.
Print Assumptions C112_update_refuted.

(** ... deleting a coordinate of a private EC2 key that has no y raises, and x is gone ... *)
Theorem C112_coordinate_refuted : forall k a, coordinate k a -> has k EC2KpD -> has k EC2KpX -> ~ has k EC2KpY ->
  key_call k (KDelItem a) = (with_store k (ddel (k_store k) (VClass EC2KpX)), Err KeyError).
Proof. exact coordinate_lost. Qed.
Print Assumptions C112_coordinate_refuted.

(** ... and a list of operations that was refused is stored if its first operation is
    supported (C36): every such list. *)
Theorem C112_key_ops_refuted : forall k o l bad ops, supported_by (k_cls k) o = Ok true ->
  mapM (from_id FOps false) (o :: l) = Ok ops -> In bad l -> supported_by (k_cls k) bad = Ok false ->
  exists e, key_call k (KSetProp PKeyOps (VList (o :: l))) = (store_set k KpKeyOps (VList ops), Err e).
Proof. exact refused_ops_stored. Qed.
Print Assumptions C112_key_ops_refuted.

(** ** Messages: setters *)

Theorem C112_headers : forall c o c' e, hdr_step c o = (c', Err e) -> c' = c.
Proof.
  intros c o c' e H. destruct o as [v|v|v|v|k v|k|k v|k]; cbn [hdr_step] in H;
    try (destruct v; try discriminate; injection H as <- _; reflexivity);
    destruct (hashable k); try discriminate; injection H as <- _; reflexivity.
Qed.
Print Assumptions C112_headers.
Theorem C112_local_attributes : forall c v c' e, set_local_attrs c v = (c', Err e) -> c' = c.
Proof. intros c v c' e H. destruct v; try discriminate; injection H as <- _; reflexivity. Qed.
Print Assumptions C112_local_attributes.
(** The signature of a COSE_Sign1 message: byte strings are taken, anything else is refused. *)
Theorem C112_signature : forall m v m' x, sign1_set_signature m v = (m', x) ->
  (exists b, v = VBytes b /\ m' = Sign1 (s1_core m) (VBytes b) /\ x = Ok tt) \/ ((forall b, v <> VBytes b) /\ m' = m /\ x = Err TypeError).
Proof.
  intros m v m' x H. destruct v; injection H as <- <-; try (right; split; [discriminate|split; reflexivity]). left. eexists. split; [reflexivity|split; reflexivity].
Qed.
Print Assumptions C112_signature.

(** Assigning recipients: those before the one that was refused are kept, beside the old ones. *)
Theorem C112_recipients_refuted : forall m rs l, enc_set_recipients m (Some (map Some rs ++ None :: l)) = (EncMsg (e_core m) (e_rcpts m ++ rs), Err TypeError).
Proof.
  intros m rs l. unfold enc_set_recipients, set_recipients. generalize (e_rcpts m) as cur. induction rs as [|r rs IH]; intros cur; cbn [map app append_recipients].
  - rewrite app_nil_r. reflexivity.
  - rewrite IH. rewrite <- app_assoc. reflexivity.
Qed.
Print Assumptions C112_recipients_refuted.

(** ** Messages: encoding *)

(** Encoding a MAC0 message that raises leaves everything but the tag as it was, and later
    calls do what they would have done. *)
Theorem C112_mac0 : forall X m tag mac m' x, mac0_encode X m tag mac = (m', x) -> m0_core m' = m0_core m /\
  forall tag' mac', snd (mac0_encode X m' tag' mac') = snd (mac0_encode X m tag' mac').
Proof. exact mac0_as_before. Qed.
Print Assumptions C112_mac0.

(** Encoding a message whose recipients bring their keys and content keys changes nothing but
    the key of the message, whatever the outcome, and later calls do what they would have done
    without it: after a failure one can repair the cause and encode again. *)
Theorem C112_enc_partial : forall X n m tag enc s x, prepared (e_rcpts m) -> encm_encode X n m tag enc = (s, x) ->
  core_kept (e_core m) (e_core (snd s)) /\ e_rcpts (snd s) = e_rcpts m /\
  forall n' tag' enc', snd (encm_encode X n' (snd s) tag' enc') = snd (encm_encode X n' m tag' enc').
Proof. exact enc_as_before. Qed.
Print Assumptions C112_enc_partial.
Theorem C112_mac_partial : forall X n m rs tag mac s x, mm_rcpts m = Some rs -> prepared rs -> macm_encode X n m tag mac = (s, x) ->
  core_kept (mm_core m) (mm_core (snd s)) /\ mm_rcpts (snd s) = mm_rcpts m /\
  forall n' tag' mac', snd (macm_encode X n' (snd s) tag' mac') = snd (macm_encode X n' m tag' mac').
Proof. exact mac_as_before. Qed.
Print Assumptions C112_mac_partial.

(** Otherwise a message that could not be encoded is not as it was. Every attempt leaves the
    content key it made in the first key-wrap recipient, where the next message finds it ... *)
Theorem C112_content_key_refuted : forall X n m r l target len p n' m' x tag,
  e_rcpts m = r :: l -> r_class r = RKeyWrap -> payload (r_core r) = Some [] ->
  phdr_encoded (e_core m) = Ok p -> get_attr (e_core m) Algorithm = Ok target -> verify_recipients (e_rcpts m) = Ok tt ->
  has_class RDirect (e_rcpts m) = false -> has_class RAgree (e_rcpts m) = false -> get_key_length target = Ok len ->
  encm_encode X n m tag true = ((n', m'), x) ->
  exists r' l', e_rcpts m' = r' :: l' /\ payload (r_core r') = Some (x_urandom X n len).
Proof. exact content_key_left. Qed.
Print Assumptions C112_content_key_refuted.

(** ... and with an ephemeral key already among the headers of a recipient, [encode] makes a
    key pair and then raises; the private key stays in the recipient, and the headers still
    announce the other one. *)
Theorem C112_key_pair_refuted : forall X n m r pk k v alg target len p tag,
  e_rcpts m = [r] -> r_class r = RAgreeKW -> ckey (r_core r) = None ->
  phdr_encoded (e_core m) = Ok p -> get_attr (e_core m) Algorithm = Ok target -> get_key_length target = Ok len ->
  dget (local (r_core r)) StaticKey = Some pk -> is_none pk = false ->
  get_attr (r_core r) Algorithm = Ok alg -> is_none alg = false -> alg_in alg es_kw = Ok true ->
  bind (peer pk) (fun q => bind (prop_get q PCrv) (fun crv => ec2_generate X (N.succ n) crv VNone)) = Ok k ->
  get_attr (r_core r) EphemeralKey = Ok v -> is_none v = false ->
  exists s r', encm_encode X n m tag true = (s, Err CoseException) /\ e_rcpts (snd s) = [r'] /\ ckey (r_core r') = Some k /\
    phdr (r_core r') = phdr (r_core r) /\ uhdr (r_core r') = uhdr (r_core r).
Proof. exact key_pair_left. Qed.
Print Assumptions C112_key_pair_refuted.

(** A second attempt then sends a message that its recipient cannot read. *)
Definition ex_announced : rcpt :=
  Rcpt 0 RAgreeKW (ex_core [(Algorithm, alg (-29)); (EphemeralKey, kval ex_own_pub)] [] None [(StaticKey, kval ex_pub)]) (VStr []) [].
Theorem C112_second_attempt_refuted : exists n1 m1 n2 m2 b c r,
  encm_encode toy 3 (ex_enc [ex_announced]) true true = ((n1, m1), Err CoseException) /\
  encm_encode toy n1 m1 true true = ((n2, m2), Ok b) /\
  decode toy None true (VBytes b) = Ok (MEnc (EncMsg c [r])) /\
  (exists e, snd (encm_decrypt toy (equip_msg (EncMsg c [r]) (bs "aad") 0 (equip_rcpt r ex_ec2 [])) (equip_rcpt r ex_ec2 [])) = Err e).
Proof.
  do 7 eexists. split; [vm_compute; reflexivity|]. split; [vm_compute; reflexivity|]. split; [vm_compute; reflexivity|]. eexists. vm_compute. reflexivity.
Qed.
Print Assumptions C112_second_attempt_refuted.

(** ** The hypotheses are met *)

(** The same without the announcement: the recipient reads the message. *)
Example C112_announced_example : exists n1 m1 b c r,
  encm_encode toy 3 (ex_enc [ex_agree 0]) true true = ((n1, m1), Ok b) /\ decode toy None true (VBytes b) = Ok (MEnc (EncMsg c [r])) /\
  snd (encm_decrypt toy (equip_msg (EncMsg c [r]) (bs "aad") 0 (equip_rcpt r ex_ec2 [])) (equip_rcpt r ex_ec2 [])) = Ok (bs "hello").
Proof. do 5 eexists. split; [vm_compute; reflexivity|]. split; [vm_compute; reflexivity|]. vm_compute. reflexivity. Qed.

Example C112_key_pair_example : exists k, e_rcpts (ex_enc [ex_announced]) = [ex_announced] /\ ckey (r_core ex_announced) = None /\
  bind (peer (kval ex_pub)) (fun q => bind (prop_get q PCrv) (fun crv => ec2_generate toy (N.succ 3) crv VNone)) = Ok k /\
  get_attr (r_core ex_announced) EphemeralKey = Ok (kval ex_own_pub) /\ get_attr (r_core ex_announced) Algorithm = Ok (alg (-29)) /\
  alg_in (alg (-29)) es_kw = Ok true /\ kval (public_part k) <> kval ex_own_pub.
Proof. eexists. split; [reflexivity|]. split; [reflexivity|]. split; [vm_compute; reflexivity|]. do 3 (split; [vm_compute; reflexivity|]). vm_compute. discriminate. Qed.

(** A reachable key and its three half-done calls; and calls that fail and change nothing. *)
Definition ex_full : result key :=
  ec2_init toy (VClass (Cls FCrv 1)) (VBytes (repeat x01 32)) (VBytes (repeat x02 32)) (VBytes []) VNone true.
Definition ex_x_only : key := key_run (PropKeys.got ex_full) [KDelItem (VStr (bs "Y")); KSetProp PD (VBytes (repeat x03 32))].
Example C112_keys_example : reachable toy ex_x_only /\ coordinate ex_x_only (VStr (bs "Y")) /\
  has ex_x_only EC2KpD /\ has ex_x_only EC2KpX /\ ~ has ex_x_only EC2KpY /\
  snd (key_call ex_x_only (KDelItem (VStr (bs "Y")))) = Err KeyError /\
  snd (key_call ex_x_only (KUpdate [(VInt 2, VBytes [x01]); (VList [], VInt 4)])) = Err TypeError /\
  param (fst (key_call ex_x_only (KUpdate [(VInt 2, VBytes [x01]); (VList [], VInt 4)]))) KpKid = Some (VBytes [x01]) /\
  key_call ex_x_only (KSetProp PCrv (VInt 99)) = (ex_x_only, Err CoseException).
Proof.
  split.
  { exists (PropKeys.got ex_full). eexists. split; [|reflexivity]. apply (ConEC2 _ (VClass (Cls FCrv 1)) (VBytes (repeat x01 32)) (VBytes (repeat x02 32)) (VBytes []) VNone true).
    vm_compute. reflexivity. }
  split; [split; [reflexivity|]; right; apply KeyProofs.denotes_iff; vm_compute; reflexivity|].
  split; [apply KeyProofs.dmem_has; vm_compute; reflexivity|]. split; [apply KeyProofs.dmem_has; vm_compute; reflexivity|].
  split; [intros H; apply KeyProofs.dmem_has in H; vm_compute in H; discriminate|].
  split; [vm_compute; reflexivity|]. split; [vm_compute; reflexivity|]. split; [vm_compute; reflexivity|]. vm_compute. reflexivity.
Qed.
Example C112_key_ops_example : exists ops, supported_by (k_cls ex_x_only) (VInt 2) = Ok true /\ supported_by (k_cls ex_x_only) (VInt 9) = Ok false /\
  mapM (from_id FOps false) [VInt 2; VInt 9] = Ok ops.
Proof. eexists. split; [reflexivity|]. split; [reflexivity|]. vm_compute. reflexivity. Qed.

(** Setters that refuse. *)
Example C112_setters_example : let c := ex_core [] [] None [] in
  snd (hdr_step c (HSetPhdr (VInt 1))) = Err TypeError /\ snd (set_local_attrs c (VInt 1)) = Err AttributeError /\
  snd (sign1_set_signature (Sign1 c (VBytes [])) (VInt 1)) = Err TypeError.
Proof. repeat split. Qed.

(** A message whose recipients have all they need is refused for want of a nonce; given one,
    it is encoded. *)
Definition ex_ready (hs : dict) (rs : list rcpt) : encmsg := EncMsg (ex_core ((Algorithm, alg 1) :: hs) (bs "hello") (Some ex_sym) []) rs.
Definition ex_content (r : rcpt) : rcpt := r_with r (with_payload (r_core r) (Some (repeat x05 16))).
Example C112_enc_example : prepared [ex_content (ex_kw 0 (Some ex_sym) [])] /\ prepared [ex_direct 0] /\
  prepared [ex_content (ex_agree_with 0 RAgreeKW (-29) [])] /\
  snd (encm_encode toy 0 (ex_ready [] [ex_content (ex_kw 0 (Some ex_sym) [])]) true true) = Err CoseException /\
  (exists b, snd (encm_encode toy 0 (ex_ready [(IV, VBytes (repeat x07 12))] [ex_content (ex_kw 0 (Some ex_sym) [])]) true true) = Ok b) /\
  snd (encm_encode toy 0 (ex_ready [] [ex_direct 0]) true true) = Err CoseException.
Proof.
  assert (HO : forall id rc c ctx, (rc = RAgree \/ rc = RAgreeKW -> ckey c <> None) -> Forall own_key [Rcpt id rc c ctx []]).
  { intros id rc c ctx H. apply Forall_cons; [|apply Forall_nil]. apply OwnKey; [exact H|apply Forall_nil]. }
  split; [split; [apply HO; intros _; discriminate|right; right; apply Forall_cons; [discriminate|apply Forall_nil]]|].
  split; [split; [apply HO; intros [H|H]; discriminate|left; reflexivity]|].
  split; [split; [apply HO; intros _; discriminate|right; right; apply Forall_cons; [discriminate|apply Forall_nil]]|].
  split; [vm_compute; reflexivity|]. split; [eexists; vm_compute; reflexivity|]. vm_compute. reflexivity.
Qed.
Example C112_mac_example : let m := MacMsg (Core [] None [(Algorithm, alg 5)] [] false None [] (Some ex_sym)) (VBytes []) (Some [ex_direct 0]) in
  mm_rcpts m = Some [ex_direct 0] /\ prepared [ex_direct 0] /\ (exists s e, macm_encode toy 0 m true true = (s, Err e)).
Proof.
  cbv zeta. split; [reflexivity|]. split; [exact (proj1 (proj2 C112_enc_example))|]. eexists _, _. vm_compute. reflexivity.
Qed.
Example C112_mac0_example : exists m' b, mac0_encode toy (Mac0 (ex_core [(Algorithm, alg 5)] (bs "hello") (Some ex_sym) []) (VBytes [])) true true = (m', Ok b) /\
  snd (mac0_encode toy (Mac0 (ex_core [(Algorithm, alg 1)] (bs "hello") (Some ex_sym) []) (VBytes [])) true true) = Err AttributeError.
Proof. eexists _, _. split; vm_compute; reflexivity. Qed.

(** A content key was made although there was no nonce. *)
Example C112_content_key_example : exists s r, encm_encode toy 3 (ex_ready [] [ex_kw 0 (Some ex_sym) []]) true true = (s, Err CoseException) /\
  e_rcpts (snd s) = [r] /\ payload (r_core r) = Some (x_urandom toy 3 16).
Proof. eexists _, _. split; [vm_compute; reflexivity|]. split; [reflexivity|]. vm_compute. reflexivity. Qed.
