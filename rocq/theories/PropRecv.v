(** Local attributes (C83), repeated labels (C84) and array lengths (C85). *)
From Coq Require Import NArith ZArith Bool String.
From Coq Require Import Init.Byte List.
From Verif Require Import Bytes Value Cbor SpecData Registry Crypto Toy Keys Algorithms Headers Messages Recipients
  SpecRegistry SpecKeys SpecCrypto SpecAlg SpecHdr SpecTrip SpecMsg SpecRcpt SpecRcptTrip SpecRecv
  RecvProofs LocalProofs PropHdr PropMsg PropRcpt PropRcptTrip.
Import ListNotations.

(** ** C83: local attributes *)

(** Whatever the local attributes of the message, of its signers and of its recipients at
    any depth, the encoding is the same, bytes or error. *)
Theorem C83_no_effect : forall X,
  (forall seed c s lo tag sign d, sign1_encode X seed (Sign1 (with_local c lo) s) tag sign d = sign1_encode X seed (Sign1 c s) tag sign d) /\
  (forall seed c l lo g tag d,
     sign_encode X seed (SignMsg (with_local c lo) (map (fun s => with_local s (g s)) l)) tag d = sign_encode X seed (SignMsg c l) tag d) /\
  (forall c lo tag enc, enc0_encode X (with_local c lo) tag enc = enc0_encode X c tag enc) /\
  (forall c t lo tag mac, snd (mac0_encode X (Mac0 (with_local c lo) t) tag mac) = snd (mac0_encode X (Mac0 c t) tag mac)) /\
  (forall n m lo f tag enc, forallb no_agreement (e_rcpts m) = true ->
     snd (encm_encode X n (relocate_enc f m lo) tag enc) = snd (encm_encode X n m tag enc)) /\
  (forall n m rs lo f tag mac, mm_rcpts m = Some rs -> forallb no_agreement rs = true ->
     snd (macm_encode X n (relocate_mac f m lo) tag mac) = snd (macm_encode X n m tag mac)).
Proof.
  intros X. split; [reflexivity|]. split; [apply sign_local|]. split; [reflexivity|]. split.
  - intros c t lo tag mac. unfold mac0_encode. cbn [m0_core m0_tag]. change (phdr_encoded (with_local c lo)) with (phdr_encoded c).
    destruct (phdr_encoded c); [|reflexivity]. destruct mac; [|reflexivity]. unfold mac0_compute_tag. cbn [m0_core]. change (mac_compute X "MAC0" (with_local c lo)) with (mac_compute X "MAC0" c).
    destruct (mac_compute X "MAC0" c); reflexivity.
  - split; intros; [apply enc_encode_local|eapply mac_encode_local]; eassumption.
Qed.
Print Assumptions C83_no_effect.
(** Attributes that, as headers, would be sent. *)
Definition ex_local : dict := [(KID, VBytes (bs "local")); (IV, VBytes (bs "1234567890123"))].
Example C83_example : exists s b, forallb no_agreement [ex_kw 0 (Some ex_sym) [ex_kw 1 (Some ex_sym) []]] = true /\ ex_local <> [] /\
  encm_encode toy 0 (relocate_enc (fun _ => ex_local) (ex_enc [ex_kw 0 (Some ex_sym) [ex_kw 1 (Some ex_sym) []]]) ex_local) true true = (s, Ok b) /\
  snd (encm_encode toy 0 (ex_enc [ex_kw 0 (Some ex_sym) [ex_kw 1 (Some ex_sym) []]]) true true) = Ok b /\ local (e_core (snd s)) = ex_local /\
  map (fun r => local (r_core r)) (e_rcpts (snd s)) = [ex_local].
Proof.
  do 2 eexists. split; [reflexivity|]. split; [discriminate|]. split; [vm_compute; reflexivity|]. repeat split; vm_compute; reflexivity.
Qed.

(** ** C84: a label occurring twice in a map *)

(** RFC 8152 section 3: labels in each map must be unique, messages with repeated ones are
    not well formed. Yet putting any entry [w] with the same label before an entry of the
    unprotected map goes unnoticed: the message is the same. *)
Theorem C84_unprotected_refuted : forall X e allow t p k w x v es rest m, label k ->
  sendable t (p :: CMap ((k, w) :: (k, v) :: es) :: rest) -> lift false w = Ok x ->
  decode X e allow (sent t (p :: CMap ((k, v) :: es) :: rest)) = Ok m ->
  decode X e allow (sent t (p :: CMap ((k, w) :: (k, v) :: es) :: rest)) = Ok m.
Proof. intros X e allow t p k w x v es rest m _. apply duplicate_unprotected. Qed.
Print Assumptions C84_unprotected_refuted.

(** In the protected map, too: only the protected bytes, as kept, differ. *)
Theorem C84_protected_refuted : forall X e allow t k w x v es u rest m, label k ->
  let map es := CBytes (enc (CMap es)) in
  sendable t (map ((k, w) :: (k, v) :: es) :: u :: rest) -> wfc (CMap ((k, w) :: (k, v) :: es)) = true -> lift false w = Ok x ->
  decode X e allow (sent t (map ((k, v) :: es) :: u :: rest)) = Ok m -> sendable t (map ((k, v) :: es) :: u :: rest) ->
  exists m' raw, decode X e allow (sent t (map ((k, w) :: (k, v) :: es) :: u :: rest)) = Ok m' /\ message_tag m' = message_tag m /\
    message_core m' = with_phdr (message_core m) (phdr (message_core m)) raw.
Proof. intros X e allow t k w x v es u rest m _. apply duplicate_protected. Qed.
Print Assumptions C84_protected_refuted.

(** What holds: the value of a registered header comes from an entry that the label names,
    and if only one does, it is the value of that one. *)
Theorem C84_origin_partial : forall X e allow b r t p rest m c n,
  In (c, n) (registered FHdr) -> decode X e allow (VBytes b) = Ok m ->
  (forall es, decode_item b = Ok (CTag t (CArr (p :: CMap es :: rest)), r) -> Forall label (map fst es) ->
    (forall w, dget (uhdr (message_core m)) (VClass c) = Some w ->
       exists k v y, In (k, v) es /\ labels c n k /\ lift false v = Ok y /\ header_value X c y w) /\
    (forall pre k v post, es = pre ++ (k, v) :: post -> labels c n k -> (forall k' v', In (k', v') (pre ++ post) -> ~ labels c n k') ->
       exists y w, lift false v = Ok y /\ dget (uhdr (message_core m)) (VClass c) = Some w /\ header_value X c y w)) /\
  (forall es q, decode_item b = Ok (CTag t (CArr (CBytes q :: p :: rest)), r) -> q <> [] -> decode_item q = Ok (CMap es, []) ->
    Forall label (map fst es) ->
    (forall w, dget (phdr (message_core m)) (VClass c) = Some w ->
       exists k v y, In (k, v) es /\ labels c n k /\ lift false v = Ok y /\ header_value X c y w) /\
    (forall pre k v post, es = pre ++ (k, v) :: post -> labels c n k -> (forall k' v', In (k', v') (pre ++ post) -> ~ labels c n k') ->
       exists y w, lift false v = Ok y /\ dget (phdr (message_core m)) (VClass c) = Some w /\ header_value X c y w)).
Proof.
  intros X e allow b r t p rest m c n HI HD. split.
  - intros es HB HL. destruct (unprotected_parsed X _ _ _ _ _ _ _ _ _ HB HD) as (d & HLf & HP). split.
    + intros w. eapply value_from_entry; eassumption.
    + intros pre k v post -> HK HU. eapply unique_entry; eassumption.
  - intros es q HB HQ HE HL. destruct (protected_parsed X _ _ _ _ _ _ _ _ _ _ HB HQ HE HD) as (d & HLf & HP). split.
    + intros w. eapply value_from_entry; eassumption.
    + intros pre k v post -> HK HU. eapply unique_entry; eassumption.
Qed.
Print Assumptions C84_origin_partial.

(** A COSE_Encrypt0 message that says twice which algorithm it uses. *)
Definition ex_alg_twice : list cbor := [CBytes []; CMap [(CUint 1, CUint 3); (CUint 1, CUint 1); (CUint 4, CBytes (bs "key"))]; CBytes (bs "ct")].
Example C84_example : exists m, label (CUint 1) /\ sendable 16 ex_alg_twice /\ lift false (CUint 3) = Ok (VInt 3) /\
  decode toy None true (sent 16 [CBytes []; CMap [(CUint 1, CUint 1); (CUint 4, CBytes (bs "key"))]; CBytes (bs "ct")]) = Ok m /\
  decode toy None true (sent 16 ex_alg_twice) = Ok m /\ dget (uhdr (message_core m)) Algorithm = Some (alg 1).
Proof.
  eexists. split; [exact I|]. split; [reflexivity|]. split; [reflexivity|]. split; [vm_compute; reflexivity|]. split; [vm_compute; reflexivity|vm_compute; reflexivity].
Qed.
Example C84_protected_example : exists m m',
  let map es := CBytes (enc (CMap es)) in
  let one := [(CUint 1, CUint 1)] in let two := (CUint 1, CUint 3) :: one in
  sendable 16 [map two; CMap []; CBytes (bs "ct")] /\ wfc (CMap two) = true /\ sendable 16 [map one; CMap []; CBytes (bs "ct")] /\
  decode toy None true (sent 16 [map one; CMap []; CBytes (bs "ct")]) = Ok m /\
  decode toy None true (sent 16 [map two; CMap []; CBytes (bs "ct")]) = Ok m' /\ dget (phdr (message_core m')) Algorithm = Some (alg 1).
Proof.
  do 2 eexists. cbv zeta. split; [reflexivity|]. split; [reflexivity|]. split; [reflexivity|]. split; [vm_compute; reflexivity|]. split; [vm_compute; reflexivity|vm_compute; reflexivity].
Qed.
(** With different spellings of one label in one map it is not always the last entry that
    counts: 1, "ALG", 1 gives the value of "ALG". *)
Example C84_spellings_example : exists m,
  decode toy None true (sent 16 [CBytes []; CMap [(CUint 1, CUint 1); (CText (bs "ALG"), CUint 2); (CUint 1, CUint 3)]; CBytes (bs "ct")]) = Ok m /\
  dget (uhdr (message_core m)) Algorithm = Some (alg 2).
Proof. eexists. split; [vm_compute; reflexivity|vm_compute; reflexivity]. Qed.
(** The hypotheses of [C84_origin_partial]. *)
Example C84_origin_example : exists m,
  let es := [(CUint 1, CUint 1); (CUint 4, CBytes (bs "key"))] in
  let b := enc (CTag 16 (CArr [CBytes []; CMap es; CBytes (bs "ct")])) in
  In (Cls FHdr 4, bs "KID") (registered FHdr) /\ decode toy None true (VBytes b) = Ok m /\
  decode_item b = Ok (CTag 16 (CArr [CBytes []; CMap es; CBytes (bs "ct")]), []) /\ Forall label (map fst es) /\
  labels (Cls FHdr 4) (bs "KID") (CUint 4) /\ ~ labels (Cls FHdr 4) (bs "KID") (CUint 1) /\
  dget (uhdr (message_core m)) (VClass (Cls FHdr 4)) = Some (VBytes (bs "key")).
Proof.
  eexists. cbv zeta. split; [vm_compute; tauto|]. split; [vm_compute; reflexivity|]. split; [vm_compute; reflexivity|].
  split; [repeat constructor|]. split; [exists (VInt 4); split; [reflexivity|]|].
  { vm_compute. tauto. }
  split; [|vm_compute; reflexivity]. intros (v & H & HS). injection H as <-. vm_compute in HS. intuition discriminate.
Qed.

(** ** C85: the number of elements *)

(** RFC 8152 sections 4 to 6 give the exact number. Any further elements are accepted and
    dropped. *)
Theorem C85_extra_refuted : forall X e allow t items more xs m,
  sendable t (items ++ more) -> mapM (lift false) more = Ok xs -> (full_length t <= length items)%nat -> sendable t items ->
  decode X e allow (sent t items) = Ok m -> decode X e allow (sent t (items ++ more)) = Ok m.
Proof. intros. eapply extra_elements; eassumption. Qed.
Print Assumptions C85_extra_refuted.

(** A COSE_Encrypt array without its recipients is accepted as a message without any. *)
Theorem C85_recipients_refuted : forall X e allow p u pl rs m, sendable 96 [p; u; pl; rs] ->
  decode X e allow (sent 96 [p; u; pl; rs]) = Ok m ->
  exists em, m = MEnc em /\ decode X e allow (sent 96 [p; u; pl]) = Ok (MEnc (EncMsg (e_core em) [])).
Proof. exact missing_recipients. Qed.
Print Assumptions C85_recipients_refuted.

(** What holds: fewer elements are refused, except for the recipients. *)
Theorem C85_too_few_partial : forall X e allow b r t items m,
  decode_item b = Ok (CTag t (CArr items), r) -> decode X e allow (VBytes b) = Ok m ->
  (length items < full_length t)%nat -> (t = 96%N /\ length items = 3%nat) \/ (t = 97%N /\ length items = 4%nat).
Proof. intros. eapply too_few_full; eassumption. Qed.
Print Assumptions C85_too_few_partial.

Definition ex_items : list cbor := [CBytes []; CMap [(CUint 1, CUint 5)]; CBytes (bs "hi"); CBytes (bs "tag")].
Example C85_example : exists m, sendable 17 (ex_items ++ [CUint 7]) /\ sendable 17 ex_items /\ (full_length 17 <= length ex_items)%nat /\
  decode toy None true (sent 17 ex_items) = Ok m /\ decode toy None true (sent 17 (ex_items ++ [CUint 7])) = Ok m.
Proof. eexists. split; [reflexivity|]. split; [reflexivity|]. split; [apply le_n|]. split; [vm_compute; reflexivity|vm_compute; reflexivity]. Qed.
Example C85_recipients_example : exists m,
  let rs := CArr [CArr [CBytes []; CMap [(CUint 1, CNint 2)]; CBytes (bs "wrapped")]] in
  let l := [CBytes []; CMap [(CUint 1, CUint 1)]; CBytes (bs "ct")] in
  sendable 96 (l ++ [rs]) /\ decode toy None true (sent 96 (l ++ [rs])) = Ok (MEnc m) /\ length (e_rcpts m) = 1%nat /\
  decode toy None true (sent 96 l) = Ok (MEnc (EncMsg (e_core m) [])) /\
  (exists e, decode toy None true (sent 96 (firstn 2 l)) = Err e).
Proof.
  eexists. cbv zeta. split; [reflexivity|]. split; [vm_compute; reflexivity|]. split; [reflexivity|]. split; [vm_compute; reflexivity|]. eexists. vm_compute. reflexivity.
Qed.
