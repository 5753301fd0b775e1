(** C127: messages, keys and what is authenticated are not taken for each other. *)
From Coq Require Import NArith ZArith Bool String Lia.
From Coq Require Import Init.Byte List.
From Verif Require Import Bytes Value Cbor Registry Crypto Keys Algorithms Headers Messages Recipients Toy SpecAlg SpecIana SpecMsg SpecStruct SpecApart.
From Verif Require Import BytesProofs ValueProofs CborProofs DataProofs PropHdr PropMsg PropAccept PropTrunc.
Import ListNotations.
Local Open Scope result_scope.
Local Open Scope list_scope.

Lemma dumps_shape : forall h v b, dumps cls_fullname h v = Ok b -> exists c, lower cls_fullname h v = Ok c /\ wfc c = true /\ b = enc c.
Proof. intros h v b H. unfold dumps in H. apply bind_ok in H as (c & HL & H). destruct (wfc c) eqn:E; [|discriminate]. injection H as <-. eauto. Qed.

Lemma mapM_cons : forall A B (f : A -> result B) x l r, mapM f (x :: l) = Ok r -> exists y r', f x = Ok y /\ r = y :: r'.
Proof. intros A B f x l r H. cbn [mapM] in H. apply bind_ok in H as (y & HY & H). apply bind_ok in H as (r' & _ & H). injection H as <-. eauto. Qed.

Lemma list_shape : forall h x l b, dumps cls_fullname h (VList (x :: l)) = Ok b -> exists c cs, lower cls_fullname h x = Ok c /\ wfc (CArr (c :: cs)) = true /\ b = enc (CArr (c :: cs)).
Proof.
  intros h x l b H. destruct (dumps_shape _ _ _ H) as (c & HL & HW & ->). change (lower cls_fullname h (VList (x :: l))) with (cs <- mapM (lower cls_fullname h) (x :: l) ;; Ok (CArr cs)) in HL.
  apply bind_ok in HL as (cs & HM & HL). injection HL as <-. apply mapM_cons in HM as (y & r' & HY & ->). eauto.
Qed.

Lemma written_loads : forall c s, wfc c = true -> loads (VBytes (enc c ++ s)) = lift false c.
Proof. intros c s HW. cbn [loads]. unfold loads_bytes. rewrite (decode_item_enc c s HW). reflexivity. Qed.

Lemma array_no_message : forall cs, wfc (CArr cs) = true -> no_message (enc (CArr cs)).
Proof.
  intros cs HW X e a s m H. unfold decode in H. rewrite (written_loads _ _ HW) in H. cbn [lift] in H. destruct (mapM (lift false) cs); cbn [bind] in H; discriminate H.
Qed.
Lemma array_no_key : forall cs, wfc (CArr cs) = true -> no_key (enc (CArr cs)).
Proof.
  intros cs HW X s k H. unfold key_decode in H. rewrite (written_loads _ _ HW) in H. cbn [lift] in H. destruct (mapM (lift false) cs); cbn [bind] in H; discriminate H.
Qed.

Lemma sent_emitted : forall X tag b, sent_message X tag b -> exists c n p l, emit c n tag (VBytes p :: l) = Ok b /\ In n [16; 17; 18; 96; 97; 98]%N.
Proof.
  assert (I : forall n, In n [16; 17; 18; 96; 97; 98]%N -> In n [16; 17; 18; 96; 97; 98]%N) by auto.
  intros X tag b H. destruct H as [seed m tag sign d b H|seed m tag d b H|c tag enc b H|m tag mac b H|n m tag enc b H|n m tag mac b H].
  - unfold sign1_encode in H. cbv zeta in H. apply bind_ok in H as (p & _ & H). apply bind_ok in H as (items & HI & H).
    assert (G : exists l, items = VBytes p :: l) by (destruct sign; [apply bind_ok in HI as (s & _ & HI)|destruct (truthy (s1_sig m))]; injection HI as <-; cbn [app]; eauto).
    destruct G as (l & ->). do 4 eexists. split; [exact H|cbn [In]; tauto].
  - unfold sign_encode in H. cbv zeta in H. apply bind_ok in H as (p & _ & H). apply bind_ok in H as (items & HI & H).
    assert (G : exists l, items = VBytes p :: l) by (destruct (sm_signers m); [|apply bind_ok in HI as (s & _ & HI)]; injection HI as <-; cbn [app]; eauto).
    destruct G as (l & ->). do 4 eexists. split; [exact H|cbn [In]; tauto].
  - unfold enc0_encode in H. apply bind_ok in H as (p & _ & H). apply bind_ok in H as (items & HI & H). do 4 eexists. split; [exact H|cbn [In]; tauto].
  - unfold mac0_encode in H. destruct (phdr_encoded (m0_core m)) as [p|]; [|discriminate]. destruct mac.
    + destruct (mac0_compute_tag X m) as [m' [t|]]; [|discriminate]. do 4 eexists. split; [exact H|cbn [In]; tauto].
    + do 4 eexists. split; [exact H|cbn [In]; tauto].
  - unfold encm_encode in H. destruct (phdr_encoded (e_core m)) as [p|]; [|discriminate].
    destruct (if enc then let '(s, x) := encm_encrypt X n m in (s, bind x (fun b => Ok (VBytes b))) else ((n, m), Ok (vopt (payload (e_core m))))) as [[n1 m1] [bd|]]; [|discriminate].
    destruct (e_rcpts m1) as [|r rs]; [do 4 eexists; split; [exact H|cbn [In]; tauto]|]. destruct (get_attr (e_core m1) Algorithm); [|discriminate].
    destruct (rcpts_encode X n1 (r :: rs)) as [[n2 rs'] [vs|]]; [|discriminate]. do 4 eexists; split; [exact H|cbn [In]; tauto].
  - unfold macm_encode in H. destruct (phdr_encoded (mm_core m)) as [p|]; [|discriminate].
    destruct (if mac then let '(s, x) := macm_compute_tag X n m in (s, bind x (fun b => Ok [VBytes b])) else ((n, m), Ok [])) as [[n1 m1] [bd|]]; [|discriminate].
    destruct (mm_rcpts m1) as [[|r rs]|]; [do 4 eexists; split; [exact H|cbn [In]; tauto]| |discriminate]. destruct (get_attr (mm_core m1) Algorithm); [|discriminate].
    destruct (rcpts_encode X n1 (r :: rs)) as [[n2 rs'] [vs|]]; [|discriminate]. do 4 eexists; split; [exact H|cbn [In]; tauto].
Qed.

(** An untagged message is an array that begins with a byte string. *)
Lemma untagged_shape : forall X b, sent_message X false b -> exists p cs, wfc (CArr (CBytes p :: cs)) = true /\ b = enc (CArr (CBytes p :: cs)).
Proof.
  intros X b H. destruct (sent_emitted _ _ _ H) as (c & n & p & l & HE & _). unfold emit, dumps_msg in HE. destruct (list_shape _ _ _ _ HE) as (x & cs & HX & HW & ->).
  cbn [lower] in HX. injection HX as <-. eauto.
Qed.
(** What is authenticated is an array that begins with a text. *)
Lemma structure_shape : forall kd t, authenticates kd t -> exists u cs, wfc (CArr (CText u :: cs)) = true /\ t = enc (CArr (CText u :: cs)).
Proof.
  assert (G : forall x l t, dumps_plain (VList (VStr x :: l)) = Ok t -> exists u cs, wfc (CArr (CText u :: cs)) = true /\ t = enc (CArr (CText u :: cs))).
  { intros x l t H. destruct (list_shape _ _ _ _ H) as (c & cs & HX & HW & ->). cbn [lower] in HX. injection HX as <-. eauto. }
  intros kd t H. destruct H as [c d t H|m s d t H|c t H|c t H|c t H|c t H].
  - unfold sign1_structure in H. apply bind_ok in H as (p & _ & H). apply bind_ok in H as (pl & _ & H). exact (G _ _ _ H).
  - unfold signer_structure in H. destruct m as [m|]; [|discriminate]. apply bind_ok in H as (bp & _ & H). apply bind_ok in H as (sp & _ & H). apply bind_ok in H as (pl & _ & H). exact (G _ _ _ H).
  - unfold enc_structure in H. apply bind_ok in H as (p & _ & H). exact (G _ _ _ H).
  - unfold enc_structure in H. apply bind_ok in H as (p & _ & H). exact (G _ _ _ H).
  - unfold mac_structure in H. apply bind_ok in H as (p & _ & H). destruct (payload c); [|discriminate]. exact (G _ _ _ H).
  - unfold mac_structure in H. apply bind_ok in H as (p & _ & H). destruct (payload c); [|discriminate]. exact (G _ _ _ H).
Qed.
(** A KDF context is an array that begins with a number. *)
Lemma kdf_shape : forall k t, kdf_encode k = Ok t -> exists z cs, wfc (CArr (lower_int z :: cs)) = true /\ t = enc (CArr (lower_int z :: cs)).
Proof.
  intros k t H. unfold kdf_encode in H. destruct (identifier_of (kc_alg k)) as [z|]; [|discriminate]. apply bind_ok in H as (p & _ & H). destruct (list_shape _ _ _ _ H) as (c & cs & HX & HW & ->).
  cbn [lower] in HX. injection HX as <-. eauto.
Qed.
Lemma int_apart : forall z, (forall p, lower_int z <> CBytes p) /\ (forall u, lower_int z <> CText u).
Proof. intros z. unfold lower_int. cbv zeta. split; intros x; destruct z; repeat match goal with |- context [if ?b then _ else _] => destruct b end; discriminate. Qed.

Lemma enc_inj : forall c c', wfc c = true -> wfc c' = true -> enc c = enc c' -> c = c'.
Proof. intros c c' H H' E. pose proof (decode_item_enc c [] H) as D. pose proof (decode_item_enc c' [] H') as D'. rewrite app_nil_r in D, D'. congruence. Qed.

(** ** C127 *)

(** No object is accepted both as a message and as a key. *)
Theorem C127_not_both : forall X Y expected allow v m k, decode X expected allow v = Ok m -> key_decode Y v <> Ok k.
Proof.
  intros X Y e a v m k H HK. unfold decode in H. unfold key_decode in HK. destruct (loads v) as [x|]; [|discriminate H]. cbn [bind] in HK.
  destruct x; try discriminate H; discriminate HK.
Qed.
Print Assumptions C127_not_both.

(** An encoded key is no message. *)
Theorem C127_keys : forall k b, key_encode k = Ok b -> no_message b.
Proof.
  intros k b H X e a s m HD. unfold key_encode in H. destruct (dumps_shape _ _ _ H) as (c & HL & HW & ->).
  assert (HC : exists cs, c = CMap cs) by (cbn [lower] in HL; apply bind_ok in HL as (cs & _ & HL); injection HL as <-; eauto). destruct HC as (cs & ->).
  unfold decode in HD. rewrite (written_loads _ _ HW) in HD. cbn [lift] in HD. destruct (mapM _ cs); cbn [bind] in HD; discriminate HD.
Qed.
Print Assumptions C127_keys.

(** An encoded message is no key; without its tag it is no message either. *)
Theorem C127_messages : forall X tag b, sent_message X tag b -> no_key b.
Proof.
  intros X tag b H. destruct tag.
  - intros Y s k HK. destruct (sent_emitted _ _ _ H) as (c & n & p & l & HE & HN). unfold emit, dumps_msg in HE. destruct (dumps_shape _ _ _ HE) as (x & HL & HW & ->).
    change (lower cls_fullname (HMsg (tstr c)) (VTag n (VList (VBytes p :: l)))) with (y <- lower cls_fullname (HMsg (tstr c)) (VList (VBytes p :: l)) ;; Ok (CTag n y)) in HL.
    apply bind_ok in HL as (y & _ & HL). injection HL as <-. unfold key_decode in HK. rewrite (written_loads _ _ HW) in HK. cbn [lift] in HK. destruct (lift false y) as [v|]; [|discriminate HK]. cbn [bind] in HK.
    cbn [In] in HN. repeat (destruct HN as [<-|HN]; [discriminate HK|]). destruct HN.
  - destruct (untagged_shape _ _ H) as (p & cs & HW & ->). apply array_no_key. exact HW.
Qed.
Print Assumptions C127_messages.

Theorem C127_untagged : forall X b, sent_message X false b -> no_message b.
Proof. intros X b H. destruct (untagged_shape _ _ H) as (p & cs & HW & ->). apply array_no_message. exact HW. Qed.
Print Assumptions C127_untagged.

(** What is signed, authenticated or used as additional data is neither a message nor a key, and
    no message, with or without its tag, and no key is such a structure. *)
Theorem C127_structures : forall kd t, authenticates kd t -> no_message t /\ no_key t /\
  (forall X tag, ~ sent_message X tag t) /\ (forall k, key_encode k <> Ok t) /\ (forall k, kdf_encode k <> Ok t).
Proof.
  intros kd t H. destruct (structure_shape _ _ H) as (u & cs & HW & ->). split; [apply array_no_message; exact HW|]. split; [apply array_no_key; exact HW|]. split; [|split].
  - intros X [] HS.
    + destruct (sent_emitted _ _ _ HS) as (c & n & p & l & HE & _). unfold emit, dumps_msg in HE. destruct (dumps_shape _ _ _ HE) as (x & HL & HW' & E). apply enc_inj in E; [|exact HW|exact HW']. subst x.
      change (lower cls_fullname (HMsg (tstr c)) (VTag n (VList (VBytes p :: l)))) with (y <- lower cls_fullname (HMsg (tstr c)) (VList (VBytes p :: l)) ;; Ok (CTag n y)) in HL.
      apply bind_ok in HL as (y & _ & HL). discriminate HL.
    + destruct (untagged_shape _ _ HS) as (p & cs' & HW' & E). apply enc_inj in E; [|exact HW|exact HW']. discriminate E.
  - intros k HK. unfold key_encode in HK. destruct (dumps_shape _ _ _ HK) as (x & HL & HW' & E). apply enc_inj in E; [|exact HW|exact HW']. subst x. cbn [lower] in HL. apply bind_ok in HL as (cs' & _ & HL). discriminate HL.
  - intros k HK. destruct (kdf_shape _ _ HK) as (z & cs' & HW' & E). apply enc_inj in E; [|exact HW|exact HW']. injection E as E _. symmetry in E. exact (proj2 (int_apart z) _ E).
Qed.
Print Assumptions C127_structures.

(** The same for the bytes from which keys are derived. *)
Theorem C127_contexts : forall k t, kdf_encode k = Ok t -> no_message t /\ no_key t /\ (forall X tag, ~ sent_message X tag t) /\ (forall k', key_encode k' <> Ok t).
Proof.
  intros k t H. destruct (kdf_shape _ _ H) as (z & cs & HW & ->). split; [apply array_no_message; exact HW|]. split; [apply array_no_key; exact HW|]. split.
  - intros X [] HS.
    + destruct (sent_emitted _ _ _ HS) as (c & n & p & l & HE & _). unfold emit, dumps_msg in HE. destruct (dumps_shape _ _ _ HE) as (x & HL & HW' & E). apply enc_inj in E; [|exact HW|exact HW']. subst x.
      change (lower cls_fullname (HMsg (tstr c)) (VTag n (VList (VBytes p :: l)))) with (y <- lower cls_fullname (HMsg (tstr c)) (VList (VBytes p :: l)) ;; Ok (CTag n y)) in HL.
      apply bind_ok in HL as (y & _ & HL). discriminate HL.
    + destruct (untagged_shape _ _ HS) as (p & cs' & HW' & E). apply enc_inj in E; [|exact HW|exact HW']. injection E as E _. exact (proj1 (int_apart z) _ E).
  - intros k' HK. unfold key_encode in HK. destruct (dumps_shape _ _ _ HK) as (x & HL & HW' & E). apply enc_inj in E; [|exact HW|exact HW']. subst x. cbn [lower] in HL. apply bind_ok in HL as (cs' & _ & HL). discriminate HL.
Qed.
Print Assumptions C127_contexts.

(** ** Examples *)

Example C127_example : exists b t u q, sent_message toy true b /\ sent_message toy false t /\ authenticates KindMac0 u /\ key_encode ex_sym = Ok q /\
  (exists m, decode toy None true (VBytes b) = Ok m) /\ (exists k, key_decode toy (VBytes q) = Ok k) /\
  key_decode toy (VBytes b) = Err TypeError /\ decode toy None true (VBytes q) = Err AttributeError /\ decode toy None true (VBytes t) = Err AttributeError /\ decode toy None true (VBytes u) = Err AttributeError.
Proof.
  set (m := Mac0 (ex_built (alg 5) false ex_sym) (VBytes [])). do 4 eexists.
  split; [apply (S_mac0 toy m true true); vm_compute; reflexivity|]. split; [apply (S_mac0 toy m false true); vm_compute; reflexivity|].
  split; [apply (Auth_mac0 (ex_built (alg 5) false ex_sym)); vm_compute; reflexivity|]. split; [vm_compute; reflexivity|].
  split; [eexists; vm_compute; reflexivity|]. split; [eexists; vm_compute; reflexivity|]. split; [vm_compute; reflexivity|]. split; [vm_compute; reflexivity|]. split; vm_compute; reflexivity.
Qed.

(** A context, made by a recipient. *)
Example C127_context_example : exists k t, get_kdf_context (ex_built (alg (-29)) false ex_ec2) (VClass (Cls FAlg (-3))) = Ok k /\ kdf_encode k = Ok t /\ decode toy None true (VBytes t) = Err AttributeError.
Proof. eexists; eexists. split; [vm_compute; reflexivity|]. split; [vm_compute; reflexivity|]. vm_compute. reflexivity. Qed.
