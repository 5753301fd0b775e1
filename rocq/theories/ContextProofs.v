(** Proofs for C86 and C87. *)
From Coq Require Import NArith ZArith Bool String Lia.
From Coq Require Import Init.Byte List.
From Verif Require Import Bytes Value ValueProofs Cbor Registry Crypto Keys Algorithms Headers Messages Recipients Context SpecContext.
Import ListNotations.
Local Open Scope result_scope.

Lemma upd_same : forall A (f : N -> A) i x, upd f i x i = x.
Proof. intros. unfold upd. rewrite N.eqb_refl. reflexivity. Qed.
Lemma upd_other : forall A (f : N -> A) i x j, j <> i -> upd f i x j = f j.
Proof. intros A f i x j H. unfold upd. apply N.eqb_neq in H. rewrite H. reflexivity. Qed.

Lemma next_grows : forall o w, (w_next w <= w_next (fst (cstep w o)))%N.
Proof. intros o w. destruct o; cbn [cstep]; try destruct (length_ok z); cbn [fst w_next set_pub set_ctx]; lia. Qed.

Lemma length_kept : forall o w i, (i < w_next w)%N -> length_ok (pu_len (w_pub w i)) = true -> length_ok (pu_len (w_pub (fst (cstep w o)) i)) = true.
Proof.
  intros o w i HI HL. destruct o as [p|j f v|z d ot|j z|j d|j ot|a s u v ot|j a|j s|j u|j v|j ot]; cbn [cstep]; try exact HL.
  - cbn [fst w_pub]. rewrite upd_other by lia. exact HL.
  - destruct (length_ok z) eqn:E; [|exact HL]. cbn [fst set_pub w_pub]. destruct (N.eq_dec i j) as [->|NE].
    + rewrite upd_same. exact E.
    + rewrite upd_other by exact NE. exact HL.
  - cbn [fst set_pub w_pub]. destruct (N.eq_dec i j) as [->|NE]; [rewrite upd_same|rewrite upd_other by exact NE]; exact HL.
  - cbn [fst set_pub w_pub]. destruct (N.eq_dec i j) as [->|NE]; [rewrite upd_same|rewrite upd_other by exact NE]; exact HL.
Qed.

Lemma lengths_kept : forall l w i, (i < w_next w)%N -> length_ok (pu_len (w_pub w i)) = true -> length_ok (pu_len (w_pub (cruns w l) i)) = true.
Proof.
  unfold cruns. induction l as [|o l IH]; intros w i HI HL; [exact HL|]. cbn [fold_left]. apply IH; [|apply length_kept; assumption].
  pose proof (next_grows o w). lia.
Qed.

(** What the encoding reads. *)
Definition same_parts (w w' : world) (i : N) : Prop :=
  w_ctx w' i = w_ctx w i /\ w_party w' (cx_u (w_ctx w i)) = w_party w (cx_u (w_ctx w i)) /\
  w_party w' (cx_v (w_ctx w i)) = w_party w (cx_v (w_ctx w i)) /\ w_pub w' (cx_pub (w_ctx w i)) = w_pub w (cx_pub (w_ctx w i)).

Lemma same_encode : forall w w' i, same_parts w w' i -> ctx_encode w' i = ctx_encode w i.
Proof. intros w w' i (H1 & H2 & H3 & H4). unfold ctx_encode. rewrite H1, H2, H3, H4. reflexivity. Qed.

Lemma step_frame : forall o w i, exists_ctx w i -> (forall t, changes o = Some t -> ~ In t (parts w i)) -> same_parts w (fst (cstep w o)) i.
Proof.
  intros o w i (H1 & H2 & H3 & H4) H. unfold same_parts.
  destruct o as [p|j f v|z d ot|j z|j d|j ot|a s u v ot|j a|j s|j u|j v|j ot]; cbn [cstep changes] in *.
  4: destruct (length_ok z); [|auto].
  all: cbn [fst set_pub set_ctx w_party w_pub w_ctx]; try specialize (H _ eq_refl); cbn [parts In] in H;
    repeat split; try reflexivity; rewrite ?upd_other; try reflexivity; try lia; intros E; apply H; subst; auto 8.
Qed.

Lemma parts_same : forall w w' i, same_parts w w' i -> parts w' i = parts w i.
Proof. intros w w' i (H & _). unfold parts. rewrite H. reflexivity. Qed.

Lemma runs_frame : forall l w i, exists_ctx w i -> leaves_alone w i l -> same_parts w (cruns w l) i.
Proof.
  unfold cruns. induction l as [|o l IH]; intros w i HE HL; [repeat split|]. inversion HL as [|? ? HO HR]; subst. cbn [fold_left].
  pose proof (step_frame o w i HE HO) as HS. pose proof (next_grows o w) as HN.
  assert (HE' : exists_ctx (fst (cstep w o)) i). { destruct HS as (A & _). destruct HE as (? & ? & ? & ?). unfold exists_ctx. rewrite A. lia. }
  assert (HL' : leaves_alone (fst (cstep w o)) i l). { unfold leaves_alone. rewrite (parts_same _ _ _ HS). exact HR. }
  destruct (IH _ _ HE' HL') as (B1 & B2 & B3 & B4). destruct HS as (A1 & A2 & A3 & A4). unfold same_parts. rewrite A1 in *.
  rewrite B1, B2, B3, B4. auto.
Qed.

Lemma build_encode : forall w k ui un uo vi vn vo, kc_u k = [ui; un; uo] -> kc_v k = [vi; vn; vo] ->
  exists_ctx (fst (build w k)) (snd (build w k)) /\
  ctx_encode (fst (build w k)) (snd (build w k)) = kdf_encode k.
Proof.
  intros w [al u v len prot po pr] ui un uo vi vn vo HU HV. cbn [kc_u kc_v] in *. subst u v.
  unfold build. cbn [kc_u kc_v kc_len kc_protected kc_pub_other kc_alg kc_priv cstep fst snd w_next w_party w_pub w_ctx].
  split.
  - unfold exists_ctx. cbn [w_next w_ctx]. rewrite !upd_same. cbn [cx_u cx_v cx_pub]. lia.
  - unfold ctx_encode, kdf_encode. cbn [w_ctx w_party w_pub]. rewrite upd_same. cbn [cx_alg cx_pub cx_u cx_v cx_priv kc_alg kc_protected kc_u kc_v kc_len kc_pub_other kc_priv].
    rewrite !upd_same. rewrite ?upd_other by lia. rewrite ?upd_same.
    destruct (identifier_of al) as [n|]; [|reflexivity]. unfold pub_encode, party_encode. cbn [pu_len pu_protected pu_other pi_identity pi_nonce pi_other].
    destruct (dumps cls_fullname HIdent (VDict prot)) as [p|e]; reflexivity.
Qed.

Lemma shared_u : forall w a s v o a' s' v' o' ops x,
  let '(w1, i) := (fst (cstep w (NewContext a s None v o)), w_next w) in
  let '(w2, j) := (fst (cstep (cruns w1 ops) (NewContext a' s' None v' o')), w_next (cruns w1 ops)) in
  cx_u (w_ctx w1 i) = cx_u (w_ctx w2 j) /\
  pi_identity (w_party (fst (cstep w2 (SetParty (cx_u (w_ctx w1 i)) Identity x))) (cx_u (w_ctx w2 j))) = x.
Proof.
  intros. cbn [cstep fst w_ctx w_party]. rewrite !upd_same. split; reflexivity.
Qed.

Lemma assignments : forall w i a ui un uo v l d po o, shows w i a (Party ui un uo) v (PubInfo l d po) o ->
  let c := w_ctx w i in let u := Party ui un uo in let s := PubInfo l d po in
  (forall x, shows (after w (SetAlgorithm i x)) i x u v s o) /\
  (forall j, shows (after w (SetU i j)) i a (w_party w j) v s o) /\
  (forall j, shows (after w (SetV i j)) i a u (w_party w j) s o) /\
  (forall j, shows (after w (SetPub i j)) i a u v (w_pub w j) o) /\
  (forall x, shows (after w (SetPriv i x)) i a u v s x) /\
  (forall x, In x [16; 24; 32]%Z -> shows (after w (SetLength (cx_pub c) x)) i a u v (PubInfo x d po) o) /\
  (forall x, shows (after w (SetProtected (cx_pub c) x)) i a u v (PubInfo l x po) o) /\
  (forall x, shows (after w (SetPubOther (cx_pub c) x)) i a u v (PubInfo l d x) o) /\
  (cx_u c <> cx_v c -> forall x,
     shows (after w (SetParty (cx_u c) Identity x)) i a (Party x un uo) v s o /\
     shows (after w (SetParty (cx_u c) Nonce x)) i a (Party ui x uo) v s o /\
     shows (after w (SetParty (cx_u c) Other x)) i a (Party ui un x) v s o).
Proof.
  intros w i a ui un uo v l d po o (H1 & H2 & H3 & H4 & H5). cbv zeta. unfold shows, after.
  repeat split; intros; repeat split; cbn [cstep]; try (match goal with H : In ?x [16; 24; 32]%Z |- _ => assert (length_ok x = true) as -> by (cbn [In] in H; destruct H as [<-|[<-|[<-|[]]]]; reflexivity) end);
    cbn [fst set_pub set_ctx w_ctx w_party w_pub]; rewrite ?upd_same; cbn [cx_alg cx_u cx_v cx_pub cx_priv]; rewrite ?upd_same; rewrite ?H2, ?H4; cbn [set_field pu_len pu_protected pu_other pi_identity pi_nonce pi_other];
    try assumption; try reflexivity; rewrite upd_other by congruence; assumption.
Qed.

Lemma assign_v : forall w i a u vi vn vo s o, shows w i a u (Party vi vn vo) s o ->
  let c := w_ctx w i in cx_u c <> cx_v c -> forall x,
  shows (after w (SetParty (cx_v c) Identity x)) i a u (Party x vn vo) s o /\
  shows (after w (SetParty (cx_v c) Nonce x)) i a u (Party vi x vo) s o /\
  shows (after w (SetParty (cx_v c) Other x)) i a u (Party vi vn x) s o.
Proof.
  intros w i a u vi vn vo s o (H1 & H2 & H3 & H4 & H5). cbv zeta. intros HN x. unfold shows, after.
  repeat split; cbn [cstep fst w_ctx w_party w_pub]; rewrite ?upd_same, ?H3; cbn [set_field pi_identity pi_nonce pi_other];
    try assumption; try reflexivity; rewrite upd_other by congruence; assumption.
Qed.

Lemma new_context : forall w a s o,
  let i := w_next w in
  (forall u v, shows (after w (NewContext a s (Some u) (Some v) o)) i a (w_party w u) (w_party w v) (w_pub w s) o) /\
  (forall u, let w' := after w (NewContext a s (Some u) None o) in
     shows w' i a (w_party w u) (w_party w default_v) (w_pub w s) o /\ cx_v (w_ctx w' i) = default_v) /\
  (forall v, let w' := after w (NewContext a s None (Some v) o) in
     shows w' i a (w_party w default_u) (w_party w v) (w_pub w s) o /\ cx_u (w_ctx w' i) = default_u) /\
  (let w' := after w (NewContext a s None None o) in
     shows w' i a (w_party w default_u) (w_party w default_v) (w_pub w s) o /\ cx_u (w_ctx w' i) <> cx_v (w_ctx w' i)) /\
  (forall p, w_party (after w (NewParty p)) i = p) /\
  (forall z d x, w_pub (after w (NewPub z d x)) i = PubInfo z d x).
Proof.
  intros w a s o. cbv zeta. unfold shows, after. cbn [cstep fst w_ctx w_party w_pub]. repeat split; intros; rewrite ?upd_same; cbn [cx_alg cx_u cx_v cx_pub cx_priv]; try reflexivity; try discriminate.
Qed.

Lemma default_silent : forall ops j, In j [default_u; default_v] -> Forall (fun o => changes o <> Some (TParty j)) ops ->
  w_party (cruns world0 ops) j = Party VNone VNone VNone.
Proof.
  intros ops j HJ HF. assert (HS : forall ops w, (j < w_next w)%N -> Forall (fun o => changes o <> Some (TParty j)) ops -> w_party (cruns w ops) j = w_party w j).
  { clear. unfold cruns. induction ops as [|o ops IH]; intros w HW HF; [reflexivity|]. inversion HF as [|? ? HO HR]; subst. cbn [fold_left].
    rewrite IH; [|pose proof (next_grows o w); lia|exact HR]. destruct o as [p|i f v|z d ot|i z|i d|i ot|a s u v ot|i a|i s|i u|i v|i ot]; cbn [cstep changes] in *; try reflexivity.
    - cbn [fst w_party]. apply upd_other. lia.
    - cbn [fst w_party]. apply upd_other. congruence.
    - destruct (length_ok z); reflexivity. }
  rewrite HS; [reflexivity| |exact HF]. cbn [In] in HJ. destruct HJ as [<-|[<-|[]]]; reflexivity.
Qed.

Lemma shows_encode : forall w i a ui un uo vi vn vo n d po o,
  shows w i a (Party ui un uo) (Party vi vn vo) (PubInfo (Z.of_nat n) d po) o ->
  ctx_encode w i = kdf_encode (Kdf a [ui; un; uo] [vi; vn; vo] n d po o).
Proof.
  intros w i a ui un uo vi vn vo n d po o (H1 & H2 & H3 & H4 & H5). unfold ctx_encode, kdf_encode. rewrite H1, H2, H3, H4, H5.
  cbn [kc_alg kc_protected kc_u kc_v kc_len kc_pub_other kc_priv]. destruct (identifier_of a) as [z|]; [|reflexivity]. unfold pub_encode, party_encode.
  cbn [pu_len pu_protected pu_other pi_identity pi_nonce pi_other]. destruct (dumps cls_fullname HIdent (VDict d)); reflexivity.
Qed.
