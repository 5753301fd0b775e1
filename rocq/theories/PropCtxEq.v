(** C126: equality of KDF contexts. *)
From Coq Require Import NArith ZArith Bool String Lia.
From Coq Require Import Init.Byte List.
From Verif Require Import Bytes BytesProofs Value ValueProofs Cbor Registry Crypto Keys Algorithms Headers Messages Recipients Toy SpecData SpecStruct Context SpecContext ContextProofs CtxEq SpecEqual SpecCtxEq EqualProofs StructProofs PropStruct.
Import ListNotations.
Local Open Scope result_scope.

Lemma tuple_eq : forall l m, pyeq (VTuple l) (VTuple m) = true <-> Forall2 (fun x y => pyeq x y = true) l m.
Proof. intros l m. rewrite <- items_eq_spec. reflexivity. Qed.

Lemma ctx_eq_iff : forall w i j, ctx_eq w i j = true <->
  Forall2 (fun x y => pyeq x y = true)
    (let c := w_ctx w i in let p := w_pub w (cx_pub c) in let u := w_party w (cx_u c) in let v := w_party w (cx_v c) in
     [cx_alg c; pi_identity u; pi_nonce u; pi_other u; pi_identity v; pi_nonce v; pi_other v; VInt (pu_len p); VDict (pu_protected p); pu_other p; cx_priv c])
    (let c := w_ctx w j in let p := w_pub w (cx_pub c) in let u := w_party w (cx_u c) in let v := w_party w (cx_v c) in
     [cx_alg c; pi_identity u; pi_nonce u; pi_other u; pi_identity v; pi_nonce v; pi_other v; VInt (pu_len p); VDict (pu_protected p); pu_other p; cx_priv c]).
Proof.
  intros w i j. unfold ctx_eq, pub_eq, party_eq. cbv zeta. rewrite !andb_true_iff, !tuple_eq. split.
  - intros ((((A & B) & C) & D) & E). inversion_clear B as [|? ? ? ? B1 B']. inversion_clear B' as [|? ? ? ? B2 B'']. inversion_clear B'' as [|? ? ? ? B3 _].
    inversion_clear C as [|? ? ? ? C1 C']. inversion_clear C' as [|? ? ? ? C2 C'']. inversion_clear C'' as [|? ? ? ? C3 _].
    inversion_clear D as [|? ? ? ? D1 D']. inversion_clear D' as [|? ? ? ? D2 D'']. inversion_clear D'' as [|? ? ? ? D3 _].
    repeat (apply Forall2_cons; [assumption|]). apply Forall2_nil.
  - intros H. repeat match goal with H : Forall2 _ (_ :: _) (_ :: _) |- _ => inversion_clear H end.
    repeat split; try assumption; repeat (apply Forall2_cons; [assumption|]); apply Forall2_nil.
Qed.

Definition values (w : world) (i : N) : list pyval :=
  let c := w_ctx w i in let p := w_pub w (cx_pub c) in let u := w_party w (cx_u c) in let v := w_party w (cx_v c) in
  [cx_alg c; pi_identity u; pi_nonce u; pi_other u; pi_identity v; pi_nonce v; pi_other v; VInt (pu_len p); VDict (pu_protected p); pu_other p; cx_priv c].
Lemma ctx_eq_values : forall w i j, ctx_eq w i j = true <-> Forall2 (fun x y => pyeq x y = true) (values w i) (values w j).
Proof. exact ctx_eq_iff. Qed.

Lemma sound_values : forall w i, sound_ctx w i -> Forall (fun v => well_formed v = true) (values w i).
Proof.
  intros w i (a & ui & un & uo & vi & vn & vo & n & d & po & o & (H1 & H2 & H3 & H4 & H5) & HF). unfold values. rewrite H1, H2, H3, H4, H5. cbn [pi_identity pi_nonce pi_other pu_len pu_protected pu_other].
  repeat match goal with H : Forall _ (_ :: _) |- _ => inversion_clear H end. repeat (apply Forall_cons; [first [assumption|reflexivity]|]). apply Forall_nil.
Qed.

(** ** C126. An equivalence *)

Theorem C126_reflexive_partial : forall w i, sound_ctx w i -> ctx_eq w i i = true.
Proof.
  intros w i H. apply ctx_eq_values. apply sound_values in H. induction H as [|x l HX HF IH]; [apply Forall2_nil|apply Forall2_cons; [apply pyeq_refl; exact HX|exact IH]].
Qed.
Print Assumptions C126_reflexive_partial.

Theorem C126_symmetric_partial : forall w i j, sound_ctx w i -> sound_ctx w j -> ctx_eq w i j = true -> ctx_eq w j i = true.
Proof.
  intros w i j HI HJ H. apply ctx_eq_values. apply ctx_eq_values in H. apply sound_values in HI. apply sound_values in HJ. revert HI HJ.
  induction H as [|x y l m HXY HF IH]; intros HI HJ; [apply Forall2_nil|]. inversion_clear HI. inversion_clear HJ. apply Forall2_cons; [apply pyeq_sym; assumption|apply IH; assumption].
Qed.
Print Assumptions C126_symmetric_partial.

Theorem C126_transitive_partial : forall w i j k, sound_ctx w i -> sound_ctx w j -> sound_ctx w k -> ctx_eq w i j = true -> ctx_eq w j k = true -> ctx_eq w i k = true.
Proof.
  intros w i j k HI HJ HK H1 H2. apply ctx_eq_values. apply ctx_eq_values in H1. apply ctx_eq_values in H2. apply sound_values in HI. apply sound_values in HJ. apply sound_values in HK. revert H2 HI HJ HK.
  generalize (values w k) as n. induction H1 as [|x y l m HXY HF IH]; intros n H2 HI HJ HK; inversion H2; subst; [apply Forall2_nil|]. inversion_clear HI. inversion_clear HJ. inversion_clear HK.
  apply Forall2_cons; [apply (pyeq_trans _ y); assumption|apply IH; assumption].
Qed.
Print Assumptions C126_transitive_partial.

(** Contexts with the same values are equal, whichever objects hold them. *)
Theorem C126_values_partial : forall w i j a u v s o, sound_ctx w i -> shows w i a u v s o -> shows w j a u v s o -> ctx_eq w i j = true.
Proof.
  intros w i j a u v s o HS (A1 & A2 & A3 & A4 & A5) (B1 & B2 & B3 & B4 & B5). pose proof (C126_reflexive_partial w i HS) as H.
  unfold ctx_eq in *. cbv zeta in *. rewrite A1, A2, A3, A4, A5 in H. rewrite A1, A2, A3, A4, A5, B1, B2, B3, B4, B5. exact H.
Qed.
Print Assumptions C126_values_partial.

(** ** Equal contexts and the keys derived with them *)

(** Refuted: equal contexts are encoded differently, and so other keys are derived, if the
    protected headers were entered in another order. *)
Definition ex_party : party := Party (VBytes (bs "lighting-client")) VNone VNone.
Definition ex_hdrs : dict := [(Algorithm, VClass (Cls FAlg (-29))); (KID, VBytes (bs "meriadoc"))].
Definition ex_ctx (d : dict) : list cop := [NewParty ex_party; NewPub 16 d (VBytes []); NewParty ex_party; NewPub 16 (rev d) (VBytes []);
  NewContext (VClass (Cls FAlg (-3))) 3 (Some 2%N) None (VBytes []); NewContext (VClass (Cls FAlg (-3))) 5 (Some 4%N) None (VBytes [])].
Theorem C126_encodes_refuted : exists w i j b b', cruns world0 (ex_ctx ex_hdrs) = w /\ sound_ctx w i /\ sound_ctx w j /\ ctx_eq w i j = true /\ ctx_encode w i = Ok b /\ ctx_encode w j = Ok b' /\
  b <> b' /\ x_hkdf toy SHA256 16 b [x01] <> x_hkdf toy SHA256 16 b' [x01].
Proof.
  eexists. exists 6%N, 7%N. eexists. eexists. split; [reflexivity|].
  split; [do 11 eexists; split; [repeat split; vm_compute; reflexivity|]; repeat (apply Forall_cons; [vm_compute; reflexivity|]); apply Forall_nil|].
  split; [do 11 eexists; split; [repeat split; vm_compute; reflexivity|]; repeat (apply Forall_cons; [vm_compute; reflexivity|]); apply Forall_nil|].
  split; [vm_compute; reflexivity|]. split; [vm_compute; reflexivity|]. split; [vm_compute; reflexivity|]. split; [discriminate|]. vm_compute. discriminate.
Qed.
Print Assumptions C126_encodes_refuted.

Lemma simple_eq : forall a b, simple a = true -> simple b = true -> pyeq a b = true -> a = b.
Proof.
  intros a b HA HB H. destruct a; try discriminate HA.
  - destruct b; try discriminate HB; try discriminate H; reflexivity.
  - destruct b; try discriminate HB; try discriminate H. apply Z.eqb_eq in H. congruence.
  - symmetry. apply pyeq_bytes. exact H.
  - destruct b; try discriminate HB; try discriminate H. apply bytes_eqb_eq in H. congruence.
  - symmetry. apply pyeq_class. exact H.
Qed.

Lemma same_labels : forall d e, well_formed (VDict d) = true -> well_formed (VDict e) = true -> Forall (fun v => simple v = true) (map fst d ++ map snd d) ->
  Forall (fun v => simple v = true) (map fst e ++ map snd e) -> map fst d = map fst e -> pyeq (VDict d) (VDict e) = true -> d = e.
Proof.
  intros d e WD WE SD SE HL H. pose proof (proj1 (pyeq_maps_iff (VDict d) (VDict e) d e eq_refl eq_refl WD WE) H) as HG. destruct (wf_map (VDict d) d eq_refl WD) as (ND & HD & _). destruct (wf_map (VDict e) e eq_refl WE) as (NE & HE & _).
  assert (G : Forall2 (fun x y => fst x = fst y) d e) by (clear - HL; revert e HL; induction d as [|x d IH]; intros [|y e] HL; try discriminate HL; [apply Forall2_nil|]; cbn [map] in HL; injection HL as E1 E2; apply Forall2_cons; [exact E1|apply IH; exact E2]).
  assert (K : forall k x y, In (k, x) d -> In (k, y) e -> x = y).
  { intros k x y I1 I2. pose proof (HG k (HD _ _ I1)) as HA. rewrite (In_dget d k x ND I1), (In_dget e k y NE I2) in HA. cbn [SpecMapping.agree] in HA.
    rewrite Forall_forall in SD, SE. apply simple_eq; [apply SD|apply SE|exact HA]; apply in_or_app; right; [apply (in_map snd) in I1; exact I1|apply (in_map snd) in I2; exact I2]. }
  clear - G K. induction G as [|[k x] [k' y] d e E G IH]; [reflexivity|]. cbn [fst] in E. subst k'. f_equal; [f_equal; apply (K k); left; reflexivity|].
  apply IH. intros q a b I1 I2. apply (K q); right; assumption.
Qed.

(** What holds: in the same order, equal contexts of simple values are encoded alike. *)
Theorem C126_encodes_partial : forall w i j, simple_ctx w i -> simple_ctx w j -> labels w i = labels w j -> ctx_eq w i j = true -> ctx_encode w i = ctx_encode w j.
Proof.
  intros w i j (a & ui & un & uo & vi & vn & vo & n & d & po & o & (A1 & A2 & A3 & A4 & A5) & AF & AW) (a' & ui' & un' & uo' & vi' & vn' & vo' & n' & d' & po' & o' & (B1 & B2 & B3 & B4 & B5) & BF & BW) HL H.
  apply ctx_eq_values in H. unfold labels in HL. unfold ctx_encode. cbv zeta. unfold values in H. cbv zeta in H. rewrite A1, A2, A3, A4, A5, B1, B2, B3, B4, B5 in H. rewrite A4, B4 in HL. rewrite A1, A2, A3, A4, A5, B1, B2, B3, B4, B5.
  clear A1 A2 A3 A4 A5 B1 B2 B3 B4 B5. cbn [pi_identity pi_nonce pi_other pu_len pu_protected pu_other] in H, HL. apply Forall_app in AF as [AF1 AF2]. apply Forall_app in BF as [BF1 BF2].
  repeat match goal with H : Forall2 _ (_ :: _) (_ :: _) |- _ => inversion_clear H end. repeat match goal with H : Forall _ (_ :: _) |- _ => inversion_clear H end.
  assert (ED : d = d') by (apply same_labels; assumption). subst d'.
  repeat match goal with H : pyeq (VInt ?x) (VInt ?y) = true |- _ => apply (simple_eq (VInt x) (VInt y) eq_refl eq_refl) in H; injection H as H; subst end.
  repeat match goal with H : pyeq ?x ?y = true |- _ => first [apply (simple_eq x y) in H; [|assumption|assumption]; subst|clear H] end. reflexivity.
Qed.
Print Assumptions C126_encodes_partial.

(** Conversely: with equal protected headers, contexts that are encoded alike are equal, and so
    contexts that differ in anything else derive keys from different bytes. *)
Definition kdf_of (w : world) (i : N) : kdfctx :=
  let c := w_ctx w i in let p := w_pub w (cx_pub c) in
  Kdf (cx_alg c) [pi_identity (w_party w (cx_u c)); pi_nonce (w_party w (cx_u c)); pi_other (w_party w (cx_u c))]
    [pi_identity (w_party w (cx_v c)); pi_nonce (w_party w (cx_v c)); pi_other (w_party w (cx_v c))] (Z.to_nat (pu_len p)) (pu_protected p) (pu_other p) (cx_priv c).
Lemma kdf_of_encode : forall w i, (0 <= pu_len (w_pub w (cx_pub (w_ctx w i))))%Z -> ctx_encode w i = kdf_encode (kdf_of w i).
Proof.
  intros w i HL. unfold ctx_encode, kdf_encode, kdf_of, pub_encode, party_encode. cbv zeta. cbn [kc_alg kc_protected kc_u kc_v kc_len kc_pub_other kc_priv]. rewrite Z2Nat.id by exact HL.
  destruct (identifier_of (cx_alg (w_ctx w i))); [|reflexivity]. destruct (dumps _ _ _); reflexivity.
Qed.

Theorem C126_same_bytes_partial : forall w i j a ui un uo vi vn vo n d po o a' ui' un' uo' vi' vn' vo' n' d' po' o' b,
  shows w i (VClass (Cls FAlg a)) (Party ui un uo) (Party vi vn vo) (PubInfo n d po) o ->
  shows w j (VClass (Cls FAlg a')) (Party ui' un' uo') (Party vi' vn' vo') (PubInfo n' d' po') o' ->
  Forall (fun v => simple v = true /\ data_value false v = true) [ui; un; uo; vi; vn; vo; po; o; ui'; un'; uo'; vi'; vn'; vo'; po'; o'] ->
  In n [16; 24; 32]%Z -> In n' [16; 24; 32]%Z -> pyeq (VDict d) (VDict d') = true ->
  ctx_encode w i = Ok b -> ctx_encode w j = Ok b -> ctx_eq w i j = true.
Proof.
  intros w i j a ui un uo vi vn vo n d po o a' ui' un' uo' vi' vn' vo' n' d' po' o' b (A1 & A2 & A3 & A4 & A5) (B1 & B2 & B3 & B4 & B5) HF HN HN' HD EI EJ.
  assert (P : forall z, In z [16; 24; 32]%Z -> (0 <= z)%Z) by (intros z HZ; cbn [In] in HZ; lia).
  rewrite kdf_of_encode in EI by (rewrite A4; apply P; exact HN). rewrite kdf_of_encode in EJ by (rewrite B4; apply P; exact HN').
  assert (Q : forall v, In v [ui; un; uo; vi; vn; vo; po; o; ui'; un'; uo'; vi'; vn'; vo'; po'; o'] -> data_value false v = true) by (rewrite Forall_forall in HF; intros v HV; apply (HF v HV)).
  assert (R : forall v, In v [ui; un; uo; vi; vn; vo; po; o; ui'; un'; uo'; vi'; vn'; vo'; po'; o'] -> pyeq v v = true).
  { rewrite Forall_forall in HF. intros v HV. apply HF in HV as [HV _]. apply pyeq_refl. destruct v; try discriminate HV; reflexivity. }
  unfold kdf_of in EI, EJ. rewrite A1, A2, A3, A4, A5 in EI. rewrite B1, B2, B3, B4, B5 in EJ. cbv zeta in EI, EJ. cbn [pi_identity pi_nonce pi_other pu_len pu_protected pu_other] in EI, EJ.
  apply ctx_eq_values. unfold values. rewrite A1, A2, A3, A4, A5, B1, B2, B3, B4, B5. cbv zeta. cbn [pi_identity pi_nonce pi_other pu_len pu_protected pu_other]. clear A1 A2 A3 A4 A5 B1 B2 B3 B4 B5.
  pose proof (fun p q => C50_kdf_context_injective _ _ _ p q EI EJ) as K.
  unfold kdf_plain in K. cbn [kc_u kc_v kc_pub_other kc_priv forallb] in K. rewrite !Q in K by (cbn [In]; tauto).
  destruct (K eq_refl eq_refl) as (E1 & E2 & E3 & E4 & _ & E6 & E7).
  cbn [kc_alg kc_u kc_v kc_len kc_pub_other kc_priv identifier_of c_id] in E1, E2, E3, E4, E6, E7. injection E1 as ->. injection E2 as -> -> ->. injection E3 as -> -> ->. subst po' o'.
  assert (EN : n = n') by (apply Z2Nat.inj; [apply P; exact HN|apply P; exact HN'|exact E4]). subst n'.
  repeat (apply Forall2_cons; [first [exact HD|apply R; cbn [In]; tauto|apply pyeq_refl; reflexivity]|]). apply Forall2_nil.
Qed.
Print Assumptions C126_same_bytes_partial.

(** ** Examples *)

(** Two contexts made of different objects with the same values are equal and encoded alike; after
    a change of a nonce they are neither. *)
Definition ex_twice : list cop := [NewParty ex_party; NewPub 16 ex_hdrs (VBytes []); NewParty ex_party; NewPub 16 ex_hdrs (VBytes []);
  NewContext (VClass (Cls FAlg (-3))) 3 (Some 2%N) None (VBytes []); NewContext (VClass (Cls FAlg (-3))) 5 (Some 4%N) None (VBytes [])].
Example C126_example : exists w w' b b', cruns world0 ex_twice = w /\ simple_ctx w 6 /\ simple_ctx w 7 /\ labels w 6 = labels w 7 /\ ctx_eq w 6 7 = true /\ ctx_encode w 6 = Ok b /\ ctx_encode w 7 = Ok b /\
  fst (cstep w (SetParty 4 Nonce (VBytes [x01]))) = w' /\ sound_ctx w' 7 /\ ctx_eq w' 6 7 = false /\ ctx_encode w' 6 = Ok b /\ ctx_encode w' 7 = Ok b' /\ b <> b'.
Proof.
  do 4 eexists. split; [reflexivity|].
  split; [do 11 eexists; split; [repeat split; vm_compute; reflexivity|]; split; [repeat (apply Forall_cons; [vm_compute; reflexivity|]); apply Forall_nil|vm_compute; reflexivity]|].
  split; [do 11 eexists; split; [repeat split; vm_compute; reflexivity|]; split; [repeat (apply Forall_cons; [vm_compute; reflexivity|]); apply Forall_nil|vm_compute; reflexivity]|].
  split; [vm_compute; reflexivity|]. split; [vm_compute; reflexivity|]. split; [vm_compute; reflexivity|]. split; [vm_compute; reflexivity|]. split; [reflexivity|].
  split; [do 11 eexists; split; [repeat split; vm_compute; reflexivity|]; repeat (apply Forall_cons; [vm_compute; reflexivity|]); apply Forall_nil|].
  split; [vm_compute; reflexivity|]. split; [vm_compute; reflexivity|]. split; [vm_compute; reflexivity|]. discriminate.
Qed.
