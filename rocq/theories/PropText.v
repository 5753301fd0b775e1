(** C113: the text of a key shows the key.

    Vocabulary: SpecText.v ([titles], [written], [opening], [shown_as], [line], [in_order],
    [ordinary_labels]). *)
From Coq Require Import NArith ZArith Bool String Permutation Sorted.
From Coq Require Import Init.Byte List.
From Verif Require Import Bytes Value Registry Crypto Toy Keys Algorithms Headers Messages Recipients Repr SpecData SpecKeys SpecMapping SpecText
  DataProofs TextProofs PropKeys PropHdr.
Import ListNotations.

(** The text of a key: every parameter once, in the order of the registered numbers, each
    with its name and its value; the numbers of symmetric, OKP and EC2 keys are abbreviated
    to their first five bytes and their length. *)
Theorem C113_key_partial : forall c s t, distinct_keys s = true -> ordinary_labels s -> key_repr c s = Ok t ->
  exists s', Permutation s s' /\ StronglySorted in_order s' /\ Forall2 (line (abbreviated c)) s' t.
Proof. intros c s t HD. rewrite distinct_keys_dnodup in HD. apply key_text. assumption. Qed.
Print Assumptions C113_key_partial.

(** The text of a header map: every header once, in the order of the map, IV abbreviated. *)
Theorem C113_headers_partial : forall d t, distinct_keys d = true -> ordinary_labels d -> ~ In (VClass KpKeyOps) (map fst d) ->
  hdr_repr d = Ok t -> Forall2 (line [Cls FHdr 5]) d t.
Proof. intros d t HD. rewrite distinct_keys_dnodup in HD. apply hdr_text. assumption. Qed.
Print Assumptions C113_headers_partial.

(** Missing: a private label that is the Python name of another parameter of the key. Then
    some parameter is not shown, whatever the key. *)
Theorem C113_clash_refuted : forall c s p n v w t, In (p, n) titles -> In (VClass p, v) s -> In (VStr (bs n), w) s ->
  key_repr c s = Ok t -> length t < length s.
Proof. intros c s p n v w t HT H1 H2. rewrite <- (titles_ok _ _ HT) in H2. exact (clash c s p v w t H1 H2). Qed.
Print Assumptions C113_clash_refuted.

(** A reachable key of each kind: with a private label, and with such a label. *)
Definition ex_printed : key := key_run (PropKeys.got PropKeys.ex_ec2)
  [KSetProp PKeyOps (VList [VInt 1; VStr (bs "VERIFY")]); KSetItem (VStr (bs "note")) (VStr (bs "mine")); KSetProp PKid (VBytes [x01])].
Example C113_example : reachable toy ex_printed /\ distinct_keys (k_store ex_printed) = true /\ ordinary_labels (k_store ex_printed) /\
  exists x y d, key_repr KEC2 (k_store ex_printed) = Ok
    [(VStr (bs "EC2KpD"), d); (VStr (bs "EC2KpY"), y); (VStr (bs "EC2KpX"), x); (VStr (bs "EC2KpCurve"), VStr (bs "P256"));
     (VStr (bs "KpKty"), VStr (bs "KtyEC2")); (VStr (bs "KpKid"), VBytes [x01]); (VStr (bs "KpKeyOps"), VList [VStr (bs "SignOp"); VStr (bs "VerifyOp")]);
     (VStr (bs "note"), VStr (bs "mine"))].
Proof.
  split; [exists (PropKeys.got PropKeys.ex_ec2); eexists; split; [exact ex_ec2_constructed|reflexivity]|]. split; [vm_compute; reflexivity|].
  split; [apply ordinary_ok; vm_compute; reflexivity|do 3 eexists; vm_compute; reflexivity].
Qed.
Example C113_headers_example : let d := [(Algorithm, VClass (Cls FAlg 1)); (IV, VBytes (repeat x07 12)); (VStr (bs "note"), VInt 1)] in
  distinct_keys d = true /\ ordinary_labels d /\ ~ In (VClass KpKeyOps) (map fst d) /\
  hdr_repr d = Ok [(VStr (bs "Algorithm"), VStr (bs "A128GCM")); (VStr (bs "IV"), VTuple [VBytes (repeat x07 5); VInt 12]); (VStr (bs "note"), VInt 1)].
Proof.
  cbv zeta. split; [reflexivity|]. split; [apply ordinary_ok; vm_compute; reflexivity|]. split; [|vm_compute; reflexivity].
  cbn [map fst In]. intros [H|[H|[H|[]]]]; discriminate.
Qed.
Example C113_clash_example : let k := fst (item_set ex_printed (VStr (bs "KpKid")) (VBytes [x02])) in
  exists t, key_repr KEC2 (k_store k) = Ok t /\ length (k_store k) = 9 /\ length t = 8 /\ dget t (VStr (bs "KpKid")) = Some (VBytes [x02]).
Proof. cbv zeta. eexists. split; [vm_compute; reflexivity|]. split; vm_compute; [reflexivity|split; reflexivity]. Qed.
