(** KDF contexts as objects: key lengths (C86) and independence (C87). *)
From Coq Require Import NArith ZArith Bool String.
From Coq Require Import Init.Byte List.
From Verif Require Import Bytes Value ValueProofs Cbor Registry Crypto Keys Algorithms Headers Messages Recipients Context SpecContext ContextProofs.
Import ListNotations.

(** ** C86: the length of the derived key *)

(** Refuted: the constructor takes any number, in every state. *)
Theorem C86_constructor_refuted : forall w z d o, exists w',
  cstep w (NewPub z d o) = (w', Ok (Some (w_next w))) /\ pu_len (w_pub w' (w_next w)) = z.
Proof. intros w z d o. eexists. split; [reflexivity|]. cbn [w_pub]. rewrite upd_same. reflexivity. Qed.
Print Assumptions C86_constructor_refuted.

(** What holds: the setter refuses other lengths and then changes nothing, and so an
    object with a proper length keeps one, whatever the program does. *)
Theorem C86_setter_partial :
  (forall w i z, ~ In z [16; 24; 32]%Z -> cstep w (SetLength i z) = (w, Err ValueError)) /\
  (forall w i z, In z [16; 24; 32]%Z -> exists w', cstep w (SetLength i z) = (w', Ok None) /\ pu_len (w_pub w' i) = z) /\
  (forall w ops i, (i < w_next w)%N -> In (pu_len (w_pub w i)) [16; 24; 32]%Z -> In (pu_len (w_pub (cruns w ops) i)) [16; 24; 32]%Z).
Proof.
  assert (HO : forall z, length_ok z = true <-> In z [16; 24; 32]%Z).
  { intros z. unfold length_ok. rewrite existsb_exists. split; [intros (y & HI & E); apply Z.eqb_eq in E; subst; exact HI|intros H; exists z; split; [exact H|apply Z.eqb_refl]]. }
  split; [|split].
  - intros w i z H. cbn [cstep]. destruct (length_ok z) eqn:E; [apply HO in E; contradiction|reflexivity].
  - intros w i z H. cbn [cstep]. apply HO in H. rewrite H. eexists. split; [reflexivity|]. cbn [set_pub w_pub]. rewrite upd_same. reflexivity.
  - intros w ops i HI HL. apply HO. apply lengths_kept; [exact HI|apply HO; exact HL].
Qed.
Print Assumptions C86_setter_partial.
Example C86_example : exists w i w2 i2 b,
  cstep world0 (NewPub 24 [] (VBytes [])) = (w, Ok (Some i)) /\ (i < w_next w)%N /\ In (pu_len (w_pub w i)) [16; 24; 32]%Z /\
  pu_len (w_pub (cruns w [SetLength i 17; SetLength i 32; SetPubOther i (VBytes [x01])]) i) = 32%Z /\
  cruns world0 [NewPub 1 [] (VBytes []); NewContext (VClass (Cls FAlg 1)) 2 None None (VBytes [])] = w2 /\ i2 = 3%N /\
  ctx_encode w2 i2 = Ok b.
Proof.
  do 5 eexists. split; [reflexivity|]. split; [reflexivity|]. split; [right; left; reflexivity|]. split; [reflexivity|].
  split; [reflexivity|]. split; [reflexivity|]. vm_compute. reflexivity.
Qed.

(** ** C87: contexts do not influence each other *)

(** Refuted: any two contexts made without party information share one PartyInfo object,
    whatever happened before and in between; setting the identity for one sets it for the
    other. *)
Theorem C87_default_party_refuted : forall w a s v o ops a' s' v' o' x,
  let w1 := fst (cstep w (NewContext a s None v o)) in let i := w_next w in
  let w2 := fst (cstep (cruns w1 ops) (NewContext a' s' None v' o')) in let j := w_next (cruns w1 ops) in
  cx_u (w_ctx w1 i) = cx_u (w_ctx w2 j) /\
  pi_identity (w_party (fst (cstep w2 (SetParty (cx_u (w_ctx w1 i)) Identity x))) (cx_u (w_ctx w2 j))) = x.
Proof. intros. exact (shared_u w a s v o a' s' v' o' ops x). Qed.
Print Assumptions C87_default_party_refuted.
(** The encoding of the second context changes. *)
Example C87_default_party_example : exists b b',
  let w := cruns world0 [NewPub 16 [] (VBytes []); NewContext (VClass (Cls FAlg 1)) 2 None None (VBytes []);
                         NewPub 16 [] (VBytes []); NewContext (VClass (Cls FAlg 1)) 4 None None (VBytes [])] in
  ctx_encode w 5 = Ok b /\ ctx_encode (fst (cstep w (SetParty (cx_u (w_ctx w 3)) Identity (VBytes (bs "alice"))))) 5 = Ok b' /\ b <> b'.
Proof. do 2 eexists. cbv zeta. split; [vm_compute; reflexivity|]. split; [vm_compute; reflexivity|discriminate]. Qed.

(** What holds: only assignments to a context or its parts can change its encoding. *)
Theorem C87_frame_partial : forall w i ops, exists_ctx w i -> leaves_alone w i ops -> ctx_encode (cruns w ops) i = ctx_encode w i.
Proof. intros w i ops HE HL. apply same_encode. apply runs_frame; assumption. Qed.
Print Assumptions C87_frame_partial.

(** The contexts that recipients make for key derivation have parts of their own: whatever
    a program did to contexts before, and does to others until it is used, the key is
    derived from the encoding of [C65]. *)
Theorem C87_recipients_partial : forall w c alg k ops, get_kdf_context c alg = Ok k ->
  leaves_alone (fst (build w k)) (snd (build w k)) ops ->
  ctx_encode (cruns (fst (build w k)) ops) (snd (build w k)) = kdf_encode k.
Proof.
  intros w c alg k ops HK HL. unfold get_kdf_context in HK.
  do 7 (let x := fresh in apply bind_ok in HK as (x & _ & HK)). injection HK as <-.
  match goal with |- ctx_encode (cruns (fst (build w ?q)) _) _ = _ => destruct (build_encode w q _ _ _ _ _ _ eq_refl eq_refl) as [HE <-] end.
  apply same_encode. apply runs_frame; assumption.
Qed.
Print Assumptions C87_recipients_partial.
Example C87_example : exists k b, get_kdf_context (Core [(PartyUID, VBytes (bs "lighting"))] None [] [] false None [] None) (VClass (Cls FAlg 1)) = Ok k /\
  let w := cruns world0 [SetParty default_u Identity (VBytes (bs "mallory"))] in
  let ops := [SetParty default_u Nonce (VBytes [x07]); NewContext (VClass (Cls FAlg 3)) 4 None (Some 3%N) (VBytes [])] in
  exists_ctx (fst (build w k)) (snd (build w k)) /\ leaves_alone (fst (build w k)) (snd (build w k)) ops /\
  ctx_encode (cruns (fst (build w k)) ops) (snd (build w k)) = Ok b.
Proof.
  do 2 eexists. split; [vm_compute; reflexivity|]. cbv zeta. split; [repeat split; vm_compute; reflexivity|].
  split; [|vm_compute; reflexivity]. repeat constructor; intros t E; vm_compute in E; try discriminate. injection E as <-. vm_compute. intuition discriminate.
Qed.

(** What the operations do to the context they name: each assignment changes that attribute
    and no other. *)
Theorem C87_assignments_partial : forall w i a ui un uo v l d po o, shows w i a (Party ui un uo) v (PubInfo l d po) o ->
  let c := w_ctx w i in let u := Party ui un uo in let s := PubInfo l d po in
  (forall x, shows (after w (SetAlgorithm i x)) i x u v s o) /\
  (forall j, shows (after w (SetU i j)) i a (w_party w j) v s o) /\
  (forall j, shows (after w (SetV i j)) i a u (w_party w j) s o) /\
  (forall j, shows (after w (SetPub i j)) i a u v (w_pub w j) o) /\
  (forall x, shows (after w (SetPriv i x)) i a u v s x) /\
  (forall x, In x [16; 24; 32]%Z -> shows (after w (SetLength (cx_pub c) x)) i a u v (PubInfo x d po) o) /\
  (forall x, shows (after w (SetProtected (cx_pub c) x)) i a u v (PubInfo l x po) o) /\
  (forall x, shows (after w (SetPubOther (cx_pub c) x)) i a u v (PubInfo l d x) o) /\
  (cx_u c <> cx_v c -> forall x,
     shows (after w (SetParty (cx_u c) Identity x)) i a (Party x un uo) v s o /\
     shows (after w (SetParty (cx_u c) Nonce x)) i a (Party ui x uo) v s o /\
     shows (after w (SetParty (cx_u c) Other x)) i a (Party ui un x) v s o).
Proof. exact assignments. Qed.
Print Assumptions C87_assignments_partial.

Theorem C87_party_v_partial : forall w i a u vi vn vo s o, shows w i a u (Party vi vn vo) s o ->
  let c := w_ctx w i in cx_u c <> cx_v c -> forall x,
  shows (after w (SetParty (cx_v c) Identity x)) i a u (Party x vn vo) s o /\
  shows (after w (SetParty (cx_v c) Nonce x)) i a u (Party vi x vo) s o /\
  shows (after w (SetParty (cx_v c) Other x)) i a u (Party vi vn x) s o.
Proof. exact assign_v. Qed.
Print Assumptions C87_party_v_partial.

(** A new context shows the parts it was given; the parties left out are two different
    objects, which in a program that assigns to neither say nothing. *)
Theorem C87_new_partial : forall w a s o,
  let i := w_next w in
  (forall u v, shows (after w (NewContext a s (Some u) (Some v) o)) i a (w_party w u) (w_party w v) (w_pub w s) o) /\
  (forall u, let w' := after w (NewContext a s (Some u) None o) in
     shows w' i a (w_party w u) (w_party w default_v) (w_pub w s) o /\ cx_v (w_ctx w' i) = default_v) /\
  (forall v, let w' := after w (NewContext a s None (Some v) o) in
     shows w' i a (w_party w default_u) (w_party w v) (w_pub w s) o /\ cx_u (w_ctx w' i) = default_u) /\
  (let w' := after w (NewContext a s None None o) in
     shows w' i a (w_party w default_u) (w_party w default_v) (w_pub w s) o /\ cx_u (w_ctx w' i) <> cx_v (w_ctx w' i)) /\
  (forall p, w_party (after w (NewParty p)) i = p) /\
  (forall z d x, w_pub (after w (NewPub z d x)) i = PubInfo z d x).
Proof. exact new_context. Qed.
Print Assumptions C87_new_partial.

Theorem C87_default_silent_partial : forall ops j, In j [default_u; default_v] -> Forall (fun o => changes o <> Some (TParty j)) ops ->
  w_party (cruns world0 ops) j = Party VNone VNone VNone.
Proof. exact default_silent. Qed.
Print Assumptions C87_default_silent_partial.

(** The encoding of a context is that of the values it shows (its layout is C65). *)
Theorem C87_encoding_partial : forall w i a ui un uo vi vn vo n d po o,
  shows w i a (Party ui un uo) (Party vi vn vo) (PubInfo (Z.of_nat n) d po) o ->
  ctx_encode w i = kdf_encode (Kdf a [ui; un; uo] [vi; vn; vo] n d po o).
Proof. exact shows_encode. Qed.
Print Assumptions C87_encoding_partial.

Example C87_assignments_example :
  let w := cruns world0 [NewPub 16 [] (VBytes []); NewContext (VClass (Cls FAlg 1)) 2 None None (VBytes [])] in
  shows w 3 (VClass (Cls FAlg 1)) (Party VNone VNone VNone) (Party VNone VNone VNone) (PubInfo 16 [] (VBytes [])) (VBytes []) /\
  cx_u (w_ctx w 3) <> cx_v (w_ctx w 3) /\ exists b, ctx_encode w 3 = Ok b.
Proof.
  cbv zeta. split; [repeat split; vm_compute; reflexivity|]. split; [vm_compute; discriminate|]. eexists. vm_compute. reflexivity.
Qed.
