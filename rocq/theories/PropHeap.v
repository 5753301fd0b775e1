(** Objects shared by several messages (C88, C89, and C45 for a list assigned to itself). *)
From Coq Require Import NArith ZArith Bool String.
From Coq Require Import Init.Byte List.
From Verif Require Import Bytes Value Cbor SpecData Registry Crypto Toy Keys Algorithms Headers Messages Recipients
  SpecRegistry SpecKeys SpecCrypto SpecAlg SpecHdr SpecTrip SpecMsg SpecRcpt SpecRcptTrip Heap SpecHeap HeapProofs ShareProofs PropHdr PropMsg PropRcpt.
Import ListNotations.

(** ** C45: assigning recipients *)

(** [m.recipients = m.recipients] never returns unless the list is empty. *)
Theorem C45_own_list_refuted : forall l, l <> [] -> forall fuel, append_own fuel 0 l = None.
Proof. intros l H fuel. apply own_list_runs. destruct l; [congruence|]. apply Nat.lt_0_succ. Qed.
Print Assumptions C45_own_list_refuted.
Example C45_own_list_example : append_own 1000 0 [7%N] = None /\ append_own 0 0 [] = Some [].
Proof. split; vm_compute; reflexivity. Qed.

(** ** C88: messages do not influence each other *)

(** Two messages for the same recipient objects: the content key drawn for the first is
    the one of the second. *)
Theorem C88_shared_recipient_refuted : forall X w m1 m2 c1 c2 l t1 t2 b1 b2, law_urandom_len X -> m1 <> m2 ->
  h_msg w m1 = HEnc c1 l -> h_msg w m2 = HEnc c2 l -> NoDup (all_objects l) ->
  Forall wraps (map (load (h_store w)) l) -> one_content_key (map (load (h_store w)) l) ->
  let w1 := fst (hstep X w (Encode m1 t1 true)) in let w2 := fst (hstep X w1 (Encode m2 t2 true)) in
  snd (hstep X w (Encode m1 t1 true)) = Ok b1 -> snd (hstep X w1 (Encode m2 t2 true)) = Ok b2 ->
  exists K k1 k2 d1 d2, h_msg w2 m1 = HEnc d1 l /\ h_msg w2 m2 = HEnc d2 l /\
    ckey d1 = Some k1 /\ ckey d2 = Some k2 /\ secret k1 K /\ secret k2 K.
Proof. exact shared_key. Qed.
Print Assumptions C88_shared_recipient_refuted.

(** What holds for messages without common recipients: whatever a program does, what it sees
    of one message is a history of a program that has only this message. *)
Theorem C88_alone_partial : forall X ops w m, (forall m', no_repeats w m' /\ (m' <> m -> disjoint w m m')) ->
  alone X (view_of w m) (history_of X w m ops) (view_of (hruns X w ops) m).
Proof. exact runs_alone. Qed.
Print Assumptions C88_alone_partial.

(** In particular, operations on other messages and their recipients change nothing. *)
Theorem C88_others_partial : forall X ops w m, (forall m', m' <> m -> no_repeats w m' /\ disjoint w m m') -> Forall (elsewhere w m) ops ->
  view_of (hruns X w ops) m = view_of w m.
Proof. exact runs_elsewhere. Qed.
Print Assumptions C88_others_partial.

(** Messages 0 and 1 share recipient 7, message 2 has recipient 8; the rest have none. *)
Definition ex_heap : heap :=
  let r := ex_kw 0 (Some ex_sym) [] in
  let c := e_core (ex_enc []) in
  MkHeap 3 (fun _ => RObj (r_class r) (r_core r) (VStr []))
    (fun m => HEnc c (if N.ltb m 2 then [Ref 7 []] else if N.eqb m 2 then [Ref 8 []] else [])).
Definition key_of (w : heap) (m : N) : option (result pyval) :=
  match h_msg w m with HEnc c _ => option_map (fun k => prop_get k PK) (ckey c) | HMac _ _ _ => None end.

Example C88_example : let w2 := hruns toy ex_heap [Encode 0 true true; Encode 1 true true; Encode 2 true true] in
  law_urandom_len toy /\ Forall wraps (map (load (h_store ex_heap)) [Ref 7 []]) /\ one_content_key (map (load (h_store ex_heap)) [Ref 7 []]) /\
  is_ok (snd (hstep toy ex_heap (Encode 0 true true))) = true /\
  is_ok (snd (hstep toy (fst (hstep toy ex_heap (Encode 0 true true))) (Encode 1 true true))) = true /\
  key_of w2 0 = key_of w2 1 /\ key_of w2 0 <> key_of w2 2.
Proof.
  cbv zeta. split; [exact toy_urandom_len|]. split; [repeat constructor|]. split.
  { left. intros r [<-|[]]. reflexivity. }
  split; [vm_compute; reflexivity|]. split; [vm_compute; reflexivity|]. split; [vm_compute; reflexivity|]. vm_compute. discriminate.
Qed.

Example C88_example_alone : (forall m', no_repeats ex_heap m' /\ (m' <> 2%N -> disjoint ex_heap 2 m')) /\
  map fst (history_of toy ex_heap 2 [Encode 0 true true; Encode 2 true true; AssignRcpt 7 (fun c => with_payload c None); Decrypt 2 (Ref 8 [])])
  = [VEncode true true; VDecrypt (load (h_store (hruns toy ex_heap [Encode 0 true true; Encode 2 true true])) (Ref 8 []))].
Proof.
  split.
  - intros m'. unfold no_repeats, disjoint, ex_heap. cbn [h_msg msg_refs].
    split.
    + destruct (N.ltb m' 2); [|destruct (N.eqb m' 2)]; vm_compute; repeat constructor; intuition.
    + intros NE i. cbn. intros [<-|[]]. destruct (N.ltb m' 2); [cbn; intuition discriminate|]. destruct (N.eqb m' 2) eqn:E; [apply N.eqb_eq in E; congruence|]. cbn. tauto.
  - vm_compute. reflexivity.
Qed.

(** ** C89: signers sign the message they are sent in *)

(** A list of signers assigned to two messages: the first message is sent with the signatures
    of the second. *)
Theorem C89_shared_signers_refuted : forall X w m1 m2 l seed tag d b, m1 <> m2 ->
  sw_lists w l <> [] ->
  let w' := sruns w [SetSigners m1 l; SetSigners m2 l] in
  h_sign_encode X w' seed m1 tag d = Ok b ->
  exists p sigs, phdr_encoded (sw_core w m1) = Ok p /\
    signers_encode X seed (Some (sw_core w m2)) (map (sw_sig w) (sw_lists w l)) d = Ok sigs /\
    emit (sw_core w m1) 98 tag [VBytes p; VDict (uhdr (sw_core w m1)); vopt (payload (sw_core w m1)); VList sigs] = Ok b.
Proof. exact shared_signers. Qed.
Print Assumptions C89_shared_signers_refuted.

(** A signer appended to the list instead of assigned: encoding fails, whatever the
    message. *)
Theorem C89_appended_refuted : forall X w m s old seed tag d, sw_parent w s = None ->
  sw_lists w (sw_list w m) = old ->
  let w' := fst (sstep w (ChangeList (sw_list w m) (old ++ [s]))) in
  is_ok (h_sign_encode X w' seed m tag d) = false.
Proof. exact appended_signer. Qed.
Print Assumptions C89_appended_refuted.

(** What holds: a message to which signers were assigned signs itself, as long as the program
    gives its signers to no other message and changes the list by assignment only (or
    removes signers). *)
Theorem C89_own_partial : forall X w m l ops seed tag d,
  let w0 := fst (sstep w (SetSigners m l)) in considerate_runs w0 m ops ->
  let w' := sruns w0 ops in
  h_sign_encode X w' seed m tag d = sign_encode X seed (sign_view w' m) tag d.
Proof. intros X w m l ops seed tag d w0 HC w'. apply own_sign_encode. apply own_runs; [apply own_after_set|exact HC]. Qed.
Print Assumptions C89_own_partial.

(** Anything but a list is refused. *)
Theorem C89_not_list_partial : forall w m, sstep w (SetNotList m) = (w, Err CoseException).
Proof. reflexivity. Qed.
Print Assumptions C89_not_list_partial.

(** Messages 0 and 1 with payloads and a signer 4, list 9 of it. *)
Definition ex_signs : option sworld :=
  match core_init toy (Args (VDict [(KID, VBytes [x01])]) VNone (VBytes (bs "hi")) (VBytes []) VNone VNone true true), core_init toy (ex_args (alg (-7)) true ex_ec2) with
  | Ok c, Ok s => Some (SWorld (fun m => if N.eqb m 0 then c else with_payload c (Some (bs "pay 1000"))) (fun m => m) (fun l => if N.eqb l 9 then [4%N] else [])
                          (fun _ => s) (fun _ => None))
  | _, _ => None
  end.
(** What a receiver of [b] finds when it verifies the first signature. *)
Definition received (b : bytes) : result bool :=
  match decode toy None true (VBytes b) with
  | Ok (MSign m) => match sm_signers m with s :: _ => signer_verify toy (Some (sm_core m)) (equip s ex_pub (bs "aad")) VNone | [] => Err IndexError end
  | _ => Err ValueError
  end.
Example C89_example : exists w b b', ex_signs = Some w /\ sw_lists w 9 <> [] /\
  h_sign_encode toy (sruns w [SetSigners 0 9]) 5 0 true VNone = Ok b /\ received b = Ok true /\
  h_sign_encode toy (sruns w [SetSigners 0 9; SetSigners 1 9]) 5 0 true VNone = Ok b' /\ received b' = Ok false.
Proof.
  do 3 eexists. split; [vm_compute; reflexivity|]. split; [vm_compute; discriminate|]. split; [vm_compute; reflexivity|]. split; [vm_compute; reflexivity|].
  split; [vm_compute; reflexivity|]. vm_compute; reflexivity.
Qed.
Example C89_example_own : exists w, ex_signs = Some w /\
  let w0 := fst (sstep w (SetSigners 0 9)) in let ops := [AssignSign 0 (fun c => with_payload c None); SetSigners 1 8; ChangeList 8 [6%N]; AssignSigner 4 (fun c => c); ChangeList 9 []] in
  considerate_runs w0 0 ops.
Proof.
  eexists. split; [vm_compute; reflexivity|]. cbv zeta. cbn [considerate_runs considerate]. repeat split; try exact I.
  - right. intros s [].
  - intros E. discriminate E.
  - intros _ x [].
Qed.
Example C89_example_appended : exists w, ex_signs = Some w /\ sw_parent (fst (sstep w (SetSigners 0 9))) 5 = None.
Proof. eexists. split; vm_compute; reflexivity. Qed.
