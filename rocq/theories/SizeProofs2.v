(** Proofs for C109: messages. *)
From Coq Require Import NArith ZArith Bool String Lia.
From Coq Require Import Init.Byte List.
From Verif Require Import Bytes BytesProofs Value ValueProofs Cbor CborProofs DataProofs Registry RegistryProofs WireProofs Crypto Keys Algorithms Headers Messages Recipients
  SpecKeys SpecHdr SpecStruct SpecAlg SpecAccept SpecCheck SpecMsg SpecSend KeyProofs KeyProofs2 KeyProofs3 KeyProofs4 HdrProofs HdrProofs2 StructProofs AcceptProofs
  CheckProofs CheckProofs2 SpecCrypto AlgProofs SendProofs SpecSize SizeProofs.
Import ListNotations.
Local Open Scope result_scope.

(** ** The length of encodings *)

Lemma head_short : forall m n, (length (head m n) <= 9)%nat.
Proof. intros m n. unfold head. repeat (destruct (N.ltb _ _); [cbn [length]; rewrite ?to_be_length; lia|]). cbn [length]. rewrite to_be_length. lia. Qed.

Lemma min_be_short : forall n, (N.of_nat (length (min_be n)) <= N.log2 n + 1)%N.
Proof.
  intros n. rewrite min_be_length. unfold byte_len. rewrite N2Nat.id.
  assert (HS : (N.size n <= N.log2 n + 1)%N) by (destruct n; [cbn; lia|rewrite N.size_log2 by discriminate; lia]).
  apply N.div_le_upper_bound; [discriminate|]. revert HS. generalize (N.size n) (N.log2 n). intros a b H. 
  assert ((a + 7) <= b + 8)%N by lia. lia.
Qed.

Lemma int_room : forall z, (N.of_nat (length (enc (lower_int z))) <= 19 + N.log2 (Z.abs_N z))%N.
Proof.
  intros z. assert (HT : forall t n, (n <= Z.abs_N z)%N -> (N.of_nat (length (enc (CTag t (CBytes (min_be n))))) <= 19 + N.log2 (Z.abs_N z))%N).
  { intros t n HN. cbn [enc]. rewrite !app_length, !Nat2N.inj_add. pose proof (head_short 6 t). pose proof (head_short 2 (blen (min_be n))).
    pose proof (min_be_short n). pose proof (N.log2_le_mono _ _ HN). lia. }
  assert (HH : forall m n, (N.of_nat (length (head m n)) <= 19 + N.log2 (Z.abs_N z))%N) by (intros m n; pose proof (head_short m n); lia).
  unfold lower_int. destruct z as [|p|p].
  - apply HH.
  - destruct (N.ltb _ _); [apply HH|apply HT; lia].
  - destruct (N.ltb _ _); [apply HH|apply HT; lia].
Qed.

Lemma name_room : forall c, (N.of_nat (length (enc (CText (cls_fullname c)))) <= 128)%N.
Proof.
  intros c. unfold cls_fullname.
  assert (HT : forall f, forallb (fun e => N.leb (N.of_nat (length (enc (CText (bs (snd e)))))) 128) (own_table f ++ match f with FHdr => unregistered_hdr_table | _ => [] end) = true) by (intros []; vm_compute; reflexivity).
  specialize (HT (c_fam c)). destruct (find _ _) as [e|] eqn:E; [|vm_compute; discriminate]. apply find_some in E as [HI _]. rewrite forallb_forall in HT. apply N.leb_le. apply (HT _ HI).
Qed.

Definition pairs_room (d : dict) : N := fold_right (fun e n => (match e with (k, x) => room k + room x end + n)%N) 0%N d.

Lemma pairs_short : forall h d cs,
  Forall (fun e => (forall c, lower cls_fullname h (fst e) = Ok c -> (N.of_nat (length (enc c)) <= room (fst e))%N) /\
                   (forall c, lower cls_fullname h (snd e) = Ok c -> (N.of_nat (length (enc c)) <= room (snd e))%N)) d ->
  mapM (lower_pair cls_fullname h) d = Ok cs -> (N.of_nat (length (enc (CMap cs))) <= 24 + pairs_room d)%N.
Proof.
  intros h d cs HF HM. apply mapM_Forall2 in HM. cbn [enc]. rewrite app_length, Nat2N.inj_add. pose proof (head_short 5 (N.of_nat (length cs))).
  assert (HX : (N.of_nat (length (flat_map (fun kv : cbor * cbor => let (k, v) := kv in enc k ++ enc v) cs)) <= pairs_room d)%N); [|lia].
  clear H. induction HM as [|[k x] y d cs HP HM IH]; [reflexivity|]. inversion_clear HF as [|? ? [H1 H2] HF']. cbn [fst snd] in *.
  unfold lower_pair in HP. apply bind_ok in HP as (k' & Hk & HP). apply bind_ok in HP as (x' & Hx & HP). injection HP as <-.
  cbn [flat_map pairs_room fold_right]. rewrite !app_length, !Nat2N.inj_add. specialize (H1 _ Hk). specialize (H2 _ Hx). specialize (IH HF'). fold (pairs_room d). lia.
Qed.

Lemma sent_room : forall s, (pairs_room (sent_entries s) <= pairs_room s)%N.
Proof.
  induction s as [|[k x] s IH]; [reflexivity|]. cbn [sent_entries].
  destruct (keyeq kp_key_ops k); [destruct (py_len x) as [[|n]|]|]; cbn [pairs_room fold_right]; fold (pairs_room s); fold (pairs_room (sent_entries s)); lia.
Qed.

Lemma list_short : forall h l cs, Forall (fun v => forall c, lower cls_fullname h v = Ok c -> (N.of_nat (length (enc c)) <= room v)%N) l ->
  mapM (lower cls_fullname h) l = Ok cs -> (N.of_nat (length (enc (CArr cs))) <= 24 + fold_right (fun x n => (room x + n)%N) 0%N l)%N.
Proof.
  intros h l cs HF HM. apply mapM_Forall2 in HM. cbn [enc]. rewrite app_length, Nat2N.inj_add. pose proof (head_short 4 (N.of_nat (length cs))).
  assert (HX : (N.of_nat (length (flat_map enc cs)) <= fold_right (fun x n => (room x + n)%N) 0%N l)%N); [|lia].
  clear H. induction HM as [|v c l cs Hv HM IH]; [reflexivity|]. inversion_clear HF as [|? ? H1 HF'].
  cbn [flat_map fold_right]. rewrite !app_length, !Nat2N.inj_add. specialize (H1 _ Hv). specialize (IH HF'). lia.
Qed.

Theorem room_enough : forall v h c, lower cls_fullname h v = Ok c -> (N.of_nat (length (enc c)) <= room v)%N.
Proof.
  induction v as [|b|z|f|n| | |b|b|l HF|l HF|d HF|t v IH|t v IH|k|k s e HS HE] using pyval_ind'; intros h c H.
  - injection H as <-. vm_compute. discriminate.
  - injection H as <-. destruct b; vm_compute; discriminate.
  - injection H as <-. cbn [room]. pose proof (int_room z). lia.
  - injection H as <-. unfold lower_float. destruct (is_nan f); [vm_compute; discriminate|]. destruct (N.eqb f f64_inf); [vm_compute; discriminate|]. destruct (N.eqb f f64_ninf); [vm_compute; discriminate|].
    cbn [enc length room]. rewrite to_be_length. vm_compute. discriminate.
  - injection H as <-. cbn [enc room]. pose proof (head_short 7 n). lia.
  - injection H as <-. vm_compute. discriminate.
  - discriminate.
  - injection H as <-. cbn [enc room]. rewrite app_length. unfold blen. pose proof (head_short 2 (N.of_nat (length b))). lia.
  - injection H as <-. cbn [enc room]. rewrite app_length. unfold blen. pose proof (head_short 3 (N.of_nat (length b))). lia.
  - cbn [lower] in H. apply bind_ok in H as (cs & HC & E). injection E as <-. cbn [room]. apply (list_short h l cs); [|exact HC]. eapply Forall_impl; [|exact HF]. intros v Hv. apply Hv.
  - cbn [lower] in H. apply bind_ok in H as (cs & HC & E). injection E as <-. cbn [room]. apply (list_short h l cs); [|exact HC]. eapply Forall_impl; [|exact HF]. intros v Hv. apply Hv.
  - rewrite lower_dict in H. apply bind_ok in H as (cs & HC & E). injection E as <-. apply (pairs_short h d cs); [|exact HC]. eapply Forall_impl; [|exact HF]. intros v [H1 H2]. split; [apply H1|apply H2].
  - cbn [lower] in H. apply bind_ok in H as (c' & HC & E). injection E as <-. cbn [enc room]. rewrite app_length. pose proof (head_short 6 t). specialize (IH h c' HC). lia.
  - cbn [lower] in H. apply bind_ok in H as (c' & HC & E). injection E as <-. cbn [enc room]. rewrite app_length. pose proof (head_short 6 t). specialize (IH h c' HC). lia.
  - cbn [lower room] in *. pose proof (int_room (c_id k)). pose proof (name_room k). destruct h as [| |t]; cbn [lower_class] in H; [discriminate|injection H as <-; lia|].
    destruct ((if fam_eq_dec (c_fam k) FAlg then true else false) && t); injection H as <-; lia.
  - destruct h as [| |t]; [discriminate|discriminate|]. apply lower_key in H as (cs & HC & ->).
    apply N.le_trans with (24 + pairs_room (sent_entries s))%N; [|cbn [room]; fold (pairs_room s); pose proof (sent_room s); lia].
    apply (pairs_short (HMsg t) (sent_entries s) cs); [|exact HC]. apply Forall_sent. eapply Forall_impl; [|exact HS]. intros v [H1 H2]. split; [apply H1|apply H2].
Qed.

Lemma dumps_room : forall v h b, dumps cls_fullname h v = Ok b -> (blen b <= room v)%N.
Proof.
  intros v h b H. unfold dumps in H. apply bind_ok in H as (c & HC & H). destruct (wfc c); [|discriminate]. injection H as <-. apply (room_enough v h c HC).
Qed.

(** ** Messages *)

Lemma unless_bind : forall P A B (r : result A) (f : A -> result B), unless P r -> (forall a, r = Ok a -> unless P (f a)) -> unless P (bind r f).
Proof. intros P A B [a|x] f HR HF; [exact (HF a eq_refl)|exact HR]. Qed.
Lemma unless_never : forall P A (r : result A), unless never r -> unless P r.
Proof. intros P A [a|x] H; [exact I|destruct H]. Qed.
Lemma only_unless : forall A (r : result A), only never r -> r <> Err OverflowError -> unless never r.
Proof. intros A [a|x] H HO; [exact I|]. destruct H as [->|[]]. elim HO. reflexivity. Qed.

(** Items of a message: they can be sent, and they exist. *)
Definition item_ok (v : pyval) : bool := sendable v && exists_in_memory v.

Lemma items_ok : forall l, forallb item_ok l = true -> forallb sendable l = true /\ forallb exists_in_memory l = true.
Proof. induction l as [|v l IH]; [auto|]. cbn [forallb]. unfold item_ok at 1. rewrite !andb_true_iff. intros [[H1 H2] H]. destruct (IH H). auto. Qed.

Lemma size_emit : forall c n tag items, (n < 2 ^ 64)%N -> fits items = true -> forallb item_ok items = true -> unless never (emit c n tag items).
Proof.
  intros c n tag items HN HF HI. apply items_ok in HI as [HS HM]. apply only_unless; [apply send_emit; exact HS|]. unfold emit, dumps_msg. apply memory_dumps.
  destruct tag; cbn [exists_in_memory]; rewrite HF, HM; [|reflexivity]. rewrite andb_true_r. apply N.ltb_lt. exact HN.
Qed.

Lemma pieces_wfc : forall l, Forall (fun b : bytes => fits b = true) l -> forallb wfc (map CBytes l) = true.
Proof. intros l HF. induction HF as [|b l Hb HF IH]; [reflexivity|]. cbn [map forallb]. rewrite wfc_bytes, IH, andb_true_r. exact (fits_len _ b Hb). Qed.
Lemma text_wfc : forall u, utf8_valid u = true -> fits u = true -> wfc (CText u) = true.
Proof. intros u HU HC. cbn [wfc]. rewrite HU, andb_true_r. exact (fits_len _ u HC). Qed.
Lemma ctx_wfc : forall ctx l, wfc (CText (bs ctx)) = true -> fits (CText (bs ctx) :: map CBytes l) = true -> Forall (fun b : bytes => fits b = true) l -> wfc (ctx_item ctx l) = true.
Proof.
  intros ctx l HC HL HF. unfold ctx_item. rewrite wfc_arr. cbn [forallb]. rewrite HC, (pieces_wfc l HF). cbn [andb]. rewrite andb_true_r. exact (fits_len _ _ HL).
Qed.
Lemma size_plain : forall ctx l, wfc (CText (bs ctx)) = true -> fits (CText (bs ctx) :: map CBytes l) = true -> Forall (fun b => fits b = true) l ->
  unless never (dumps_plain (VList (VStr (bs ctx) :: map VBytes l))).
Proof. intros ctx l HC HL HF. rewrite dumps_ctx_eq. rewrite (ctx_wfc ctx l HC HL HF). exact I. Qed.

Lemma fits_lt : forall b : bytes, (blen b < 2 ^ 63)%N -> fits b = true.
Proof. intros b H. apply N.ltb_lt. exact H. Qed.

Lemma fits_same : forall A B (a : list A) (b : list B), length a = length b -> fits b = true -> fits a = true.
Proof. intros A B a b E H. unfold fits. rewrite E. exact H. Qed.

Lemma size_phdr : forall c, sendable_headers c -> core_exists c -> unless never (phdr_encoded c) /\ forall p, phdr_encoded c = Ok p -> fits p = true.
Proof.
  intros c HH (HP & HR & _ & _ & HW & _). split.
  - apply only_unless; [apply send_phdr; exact HH|]. unfold phdr_encoded. destruct (phdr_raw c); [discriminate|]. destruct (phdr c) as [|e d] eqn:E; [discriminate|].
    rewrite <- E in *. apply memory_dumps. exact HP.
  - intros p H. unfold phdr_encoded in H. destruct (phdr_raw c) as [r|]; [injection H as <-; apply HW; reflexivity|]. destruct (phdr c) as [|e d] eqn:E; [injection H as <-; reflexivity|].
    rewrite <- E in *. apply dumps_room in H. apply fits_lt. eapply N.le_lt_trans; [exact H|exact HR].
Qed.
Lemma size_base : forall c, sendable_headers c -> core_exists c -> unless never (base_protected c) /\ forall p, base_protected c = Ok p -> fits p = true.
Proof.
  intros c HH HE. unfold base_protected. destruct (phdr c); [split; [exact I|]; intros p H; injection H as <-; reflexivity|]. apply size_phdr; assumption.
Qed.

Lemma aad_fits : forall c, core_exists c -> fits (aad c) = true.
Proof. intros c (_ & _ & _ & H & _). exact H. Qed.
Lemma payload_fits : forall c p, core_exists c -> payload c = Some p -> fits p = true.
Proof. intros c p (_ & _ & _ & _ & _ & HP) H. apply fits_lt. specialize (HP p H). lia. Qed.
Lemma payload_item : forall c, core_exists c -> item_ok (vopt (payload c)) = true.
Proof. intros c HE. destruct (payload c) as [p|] eqn:E; [|reflexivity]. apply (payload_fits c p HE E). Qed.
Lemma uhdr_item : forall c, sendable_headers c -> core_exists c -> item_ok (VDict (uhdr c)) = true.
Proof. intros c [_ HU] (_ & _ & HE & _). unfold item_ok. rewrite HU. exact HE. Qed.
Lemma bytes_item : forall b, fits b = true -> item_ok (VBytes b) = true.
Proof. intros b H. exact H. Qed.

Section Size.
Variable X : crypto.

Lemma size_alg_sign : forall seed z k t, typed k -> sig_algorithm (k_cls k) z -> can_sign k -> unless (sign_failure X) (alg_sign X seed (alg z) k t).
Proof.
  intros seed z k t HT HZ HS. pose proof HT as (_ & _ & _ & _ & HC). unfold can_sign in HS. destruct (k_cls k) eqn:EC; cbn [sig_algorithm] in HZ; [destruct HZ| | |].
  - subst z. destruct HS as [(d & HD & _) (cz & HI & HV)]. unfold alg_sign. cbn [alg_kind]. change (alg_kind (alg (-8))) with (Some AEdDSA). cbv iota beta.
    unfold ed_curve. rewrite prop_get_place, EC. cbn [place crv_prop]. rewrite HV. cbn [bind].
    assert (HB : attr_bytes k PD = Ok d) by (unfold attr_bytes; rewrite prop_get_place, EC; cbn [place bytes_prop]; rewrite HD; reflexivity).
    apply unless_bind; [destruct HI as [<-|[<-|[]]]; exact I|]. intros cv _. rewrite HB. cbn [bind].
    destruct (x_ed_sign X cv d t) eqn:E; [exact I|]. right. right. eauto.
  - destruct (filled_hex k PD EC2KpD) as [d HD]; [rewrite EC; reflexivity|exact HS|]. unfold alg_sign.
    each HZ; match goal with |- unless _ (match alg_kind ?a with _ => _ end) => let r := eval vm_compute in (alg_kind a) in change (alg_kind a) with r end;
      cbv iota beta; rewrite HD; cbn [bind]; match goal with |- unless _ ?e => destruct e eqn:E; [exact I|right; left; eauto 8] end.
  - destruct HC as (bn & be & HN & HE).
    assert (HQ : exists q, rsa_private_numbers k = Ok q).
    { assert (HI : forall p q, place KRSA p = Some q -> In q [RSAKpP; RSAKpQ; RSAKpD; RSAKpDP; RSAKpDQ; RSAKpQInv] -> exists n, attr_int k p = Ok n).
      { intros p q HP HI. destruct (HS q HI) as (b & HB & _). eapply filled_int; [rewrite EC; exact HP|exact HB]. }
      unfold rsa_private_numbers, rsa_public_numbers.
      destruct (filled_int k PE RSAKpE be) as [e He]; [rewrite EC; reflexivity|exact HE|].
      destruct (filled_int k PN RSAKpN bn) as [n Hn]; [rewrite EC; reflexivity|exact HN|]. rewrite He, Hn. cbn [bind].
      destruct (HI PP RSAKpP) as [? ->]; [reflexivity|cbn; auto|]. destruct (HI PQ RSAKpQ) as [? ->]; [reflexivity|cbn; auto|].
      destruct (HI PD RSAKpD) as [? ->]; [reflexivity|cbn; auto|]. destruct (HI PDP RSAKpDP) as [? ->]; [reflexivity|cbn; auto|].
      destruct (HI PDQ RSAKpDQ) as [? ->]; [reflexivity|cbn; auto 6|]. destruct (HI PQInv RSAKpQInv) as [? ->]; [reflexivity|cbn; auto 8|]. cbn [bind]. eauto. }
    destruct HQ as (q & HQ). unfold alg_sign.
    each HZ; match goal with |- unless _ (match alg_kind ?a with _ => _ end) => let r := eval vm_compute in (alg_kind a) in change (alg_kind a) with r end;
      cbv iota beta; rewrite HQ; cbn [bind]; match goal with |- unless _ ?e => destruct e eqn:E; [exact I|left; eauto 8] end.
Qed.


Lemma sign_fits : forall seed z k t s, law_sign_fits X -> alg_sign X seed (alg z) k t = Ok s -> fits s = true.
Proof.
  intros seed z k t s (L1 & L2 & L3) H. unfold alg_sign in H. destruct (alg_kind (alg z)) as [[]|]; try discriminate;
    repeat (apply bind_ok in H as (? & _ & H)); try discriminate; eauto.
Qed.

Lemma size_signature : forall seed c structure, law_sign_fits X -> signs c -> unless never structure ->
  unless (sign_failure X) (compute_signature X seed c structure) /\ forall s, compute_signature X seed c structure = Ok s -> fits s = true.
Proof.
  intros seed c structure HF (z & k & HP & HZ & HS) HT. pose proof (permitted_verify _ _ _ _ HP) as HV. destruct HP as (HA & HK & HY & _ & _).
  unfold compute_signature. rewrite HA. cbn [bind]. unfold key_verification. rewrite HK.
  assert (E : match k_cls k with KSym => Err CoseException | kc => _ <- key_verify k kc (alg z) [SignOp] ;; Ok k end = Ok k).
  { change [SignOp] with (map VClass [Cls FOps 1]). destruct (k_cls k); [destruct HZ| | |]; rewrite HV; reflexivity. }
  rewrite E. cbn [bind]. rewrite (has_sign_ok _ _ HZ). cbn [bind]. split.
  - apply unless_bind; [apply unless_never; exact HT|]. intros t _. apply size_alg_sign; assumption.
  - intros s H. apply bind_ok in H as (t & _ & H). exact (sign_fits _ _ _ _ _ HF H).
Qed.

Lemma size_payload : forall c d, core_exists c -> (forall b, d = Some b -> fits b = true) -> one_payload c d ->
  exists l, sig_payload (payload c) (vopt d) = Ok (VBytes l) /\ fits l = true.
Proof.
  intros c d HE HD HO. pose proof (payload_fits c) as HP. unfold one_payload in HO. destruct (payload c) as [p|]; destruct d as [b|]; try contradiction; cbn [vopt sig_payload]; eauto.
Qed.

Lemma size_sign1_structure : forall c d, sendable_headers c -> core_exists c -> (forall b, d = Some b -> fits b = true) -> one_payload c d -> unless never (sign1_structure c (vopt d)).
Proof.
  intros c d HH HE HD HO. unfold sign1_structure. destruct (size_base c HH HE) as [B1 B2]. apply unless_bind; [exact B1|]. intros p Hp.
  destruct (size_payload c d HE HD HO) as (l & -> & HL). cbn [bind]. apply (size_plain "Signature1" [p; aad c; l]); try reflexivity.
  repeat constructor; [apply B2; exact Hp|exact (aad_fits _ HE)|exact HL].
Qed.

Lemma size_signer_structure : forall m s d, sendable_headers m -> core_exists m -> sendable_headers s -> core_exists s ->
  (forall b, d = Some b -> fits b = true) -> one_payload m d -> unless never (signer_structure (Some m) s (vopt d)).
Proof.
  intros m s d HM HEM HS HES HD HO. unfold signer_structure. destruct (size_phdr m HM HEM) as [B1 B2]. apply unless_bind; [exact B1|]. intros p Hp.
  destruct (size_payload m d HEM HD HO) as (l & HL & HF). destruct (phdr s) as [|e r].
  - cbn [bind]. rewrite HL. cbn [bind app]. apply (size_plain "Signature" [p; aad s; l]); try reflexivity. repeat constructor; [apply B2; exact Hp|exact (aad_fits _ HES)|exact HF].
  - destruct (size_phdr s HS HES) as [C1 C2]. apply unless_bind; [apply unless_bind; [exact C1|intros; exact I]|]. intros sp HSP.
    apply bind_ok in HSP as (q & Hq & HSP). injection HSP as <-. rewrite HL. cbn [bind app]. apply (size_plain "Signature" [p; q; aad s; l]); try reflexivity.
    repeat constructor; [apply B2; exact Hp|apply C2; exact Hq|exact (aad_fits _ HES)|exact HF].
Qed.

Theorem size_sign1 : forall seed m tag d, law_sign_fits X -> sendable_headers (s1_core m) -> signs (s1_core m) -> one_payload (s1_core m) d ->
  core_exists (s1_core m) -> (forall b, d = Some b -> fits b = true) -> unless (sign_failure X) (sign1_encode X seed m tag true (vopt d)).
Proof.
  intros seed m tag d HF HH HS HO HE HD. unfold sign1_encode. cbv zeta. destruct (size_phdr _ HH HE) as [B1 B2]. apply unless_bind; [apply unless_never; exact B1|]. intros p Hp.
  destruct (size_signature seed (s1_core m) (sign1_structure (s1_core m) (vopt d)) HF HS (size_sign1_structure _ _ HH HE HD HO)) as [S1 S2].
  apply unless_bind; [apply unless_bind; [exact S1|intros; exact I]|]. intros items HI. apply bind_ok in HI as (s & Hs & HI). injection HI as <-.
  apply unless_never, size_emit; [reflexivity|reflexivity|]. cbn [app forallb]. rewrite (bytes_item p (B2 _ Hp)), (uhdr_item _ HH HE), (payload_item _ HE), (bytes_item s (S2 _ Hs)). reflexivity.
Qed.

Theorem size_sign : forall seed m tag d, law_sign_fits X -> sendable_headers (sm_core m) -> core_exists (sm_core m) -> fits (sm_signers m) = true ->
  Forall (fun s => sendable_headers s /\ signs s /\ core_exists s) (sm_signers m) -> one_payload (sm_core m) d -> (forall b, d = Some b -> fits b = true) ->
  unless (sign_failure X) (sign_encode X seed m tag (vopt d)).
Proof.
  intros seed m tag d HF HH HE HN HS HO HD. unfold sign_encode. cbv zeta. destruct (size_phdr _ HH HE) as [B1 B2]. apply unless_bind; [apply unless_never; exact B1|]. intros p Hp.
  assert (HL : forall l n, Forall (fun s => sendable_headers s /\ signs s /\ core_exists s) l -> unless (sign_failure X) (signers_encode X n (Some (sm_core m)) l (vopt d)) /\
    forall vs, signers_encode X n (Some (sm_core m)) l (vopt d) = Ok vs -> forallb item_ok vs = true /\ length vs = length l).
  { clear HS HN. induction l as [|s l IH]; intros n HA; [split; [exact I|]; intros vs H; injection H as <-; split; reflexivity|].
    apply Forall_cons_iff in HA as [(HU & HS & HC) HA]. destruct (IH (N.succ n) HA) as [I1 I2]. cbn [signers_encode].
    destruct (size_phdr s HU HC) as [C1 C2].
    destruct (size_signature n s (signer_structure (Some (sm_core m)) s (vopt d)) HF HS (size_signer_structure _ _ _ HH HE HU HC HD HO)) as [S1 S2]. split.
    - apply unless_bind; [|intros v _; apply unless_bind; [exact I1|intros; exact I]]. unfold signer_encode.
      apply unless_bind; [apply unless_never; exact C1|]. intros q _. apply unless_bind; [|intros; exact I]. exact S1.
    - intros vs H. apply bind_ok in H as (v & HV & H). apply bind_ok in H as (r & HR & H). injection H as <-. cbn [forallb length]. destruct (I2 _ HR) as [-> ->].
      unfold signer_encode in HV. apply bind_ok in HV as (q & Hq & HV). apply bind_ok in HV as (g & Hg & HV). injection HV as <-. split; [|reflexivity].
      rewrite andb_true_r. pose proof (uhdr_item s HU HC) as HI. unfold item_ok in *. apply andb_true_iff in HI as [H1 H2]. specialize (C2 _ Hq). specialize (S2 _ Hg).
      cbn [sendable exists_in_memory forallb] in *. rewrite H1, H2, C2, S2. reflexivity. }
  destruct (HL _ seed HS) as [H1 H2]. destruct (sm_signers m) as [|s l].
  - cbn [bind]. apply unless_never, size_emit; [reflexivity|reflexivity|]. cbn [forallb]. rewrite (bytes_item p (B2 _ Hp)), (uhdr_item _ HH HE), (payload_item _ HE). reflexivity.
  - apply unless_bind; [apply unless_bind; [exact H1|intros; exact I]|]. intros items HI. apply bind_ok in HI as (vs & HV & HI). injection HI as <-.
    destruct (H2 _ HV) as [V1 V2]. apply unless_never, size_emit; [reflexivity|reflexivity|]. cbn [app forallb].
    rewrite (bytes_item p (B2 _ Hp)), (uhdr_item _ HH HE), (payload_item _ HE), andb_true_r. apply items_ok in V1 as [V3 V4].
    unfold item_ok. cbn [andb sendable exists_in_memory]. rewrite V3, V4, andb_true_r. exact (fits_same _ _ _ _ V2 HN).
Qed.

Lemma size_encrypt : forall ctx c z k, wfc (CText (bs ctx)) = true -> law_seal_fits X -> sendable_headers c -> core_exists c -> permitted c z k [Cls FOps 3] -> k_cls k = KSym -> enc_algorithm z ->
  has_nonce c k -> payload c <> None -> 
  unless (seal_failure X) (enc_encrypt X ctx c) /\ forall b, enc_encrypt X ctx c = Ok b -> fits b = true.
Proof.
  intros ctx c z k HC1 HFit HH HEx HP HC HZ HN HL. pose proof (permitted_verify _ _ _ _ HP) as HV. destruct HP as (HA & HK & HT & _ & _).
  unfold enc_encrypt. rewrite HK, HA. cbn [bind].
  assert (HG : exists n, get_nonce c = Ok (VBytes n)).
  { unfold get_nonce. destruct HN as [(n & ->)|(-> & (b & HB & HE) & p & HQ)]; cbn [bind is_none]; [eauto|]. rewrite HK, prop_get_place. cbn [place].
    replace (match bytes_prop (k_cls k) PBaseIV with Some q => _ | None => _ end) with (Ok (VBytes b) : result pyval).
    2: { rewrite HC. cbn [bytes_prop]. rewrite HB. reflexivity. }
    cbn [bind]. destruct b; [elim HE; reflexivity|]. replace (veqb (VBytes (b :: b0)) (VBytes [])) with false by reflexivity.
    rewrite HQ. cbn [bind as_bytes]. eauto. }
  destruct HG as (n & ->). cbn [bind]. rewrite HC in HV. change [EncryptOp] with (map VClass [Cls FOps 3]). rewrite HV. cbn [bind].
  rewrite (has_enc_ok z HZ). cbn [bind]. destruct (size_base c HH HEx) as [B1 B2].
  assert (HST : unless never (enc_structure ctx c)).
  { unfold enc_structure. apply unless_bind; [exact B1|]. intros p Hp. apply (size_plain ctx [p; aad c]); try assumption; [reflexivity|]. repeat constructor; [apply B2; exact Hp|exact (aad_fits _ HEx)]. }
  destruct (payload c) as [pl|] eqn:EP; [|elim HL; reflexivity]. destruct (typed_secret k HT HC) as (b & HB & _).
  assert (HS : attr_bytes k PK = Ok b) by (unfold attr_bytes; rewrite HB; reflexivity). pose proof (has_enc_ok z HZ) as HX.
  assert (HPL : (blen pl + 16 < 2 ^ 63)%N) by (apply HEx; exact EP). destruct HFit as [F1 F2]. split.
  - apply unless_bind; [apply unless_never; exact HST|]. intros ad _. unfold alg_encrypt.
    unfold has_enc in HX. destruct (alg_kind (alg z)) as [[]|]; try discriminate; rewrite HS; cbn [bind as_bytes vopt];
      match goal with |- unless _ ?e => destruct e eqn:E; [exact I|] end; [left|right]; eauto 8.
  - intros ct H. apply bind_ok in H as (ad & _ & H). unfold alg_encrypt in H. unfold has_enc in HX.
    assert (HT16 : forall t l, alg_kind (alg z) = Some (ACcm t l) -> t <= 16).
    { clear - HZ. intros t l E. destruct HZ as [HZ|HZ]; each HZ; vm_compute in E; try discriminate; injection E as <- <-; apply Nat.leb_le; reflexivity. }
    destruct (alg_kind (alg z)) as [[]|] eqn:EK; try discriminate; rewrite HS in H; cbn [bind as_bytes vopt] in H; apply fits_lt; [apply F1 in H|apply F2 in H; specialize (HT16 _ _ eq_refl)]; lia.
Qed.

Theorem size_enc0 : forall c z k tag, law_seal_fits X -> sendable_headers c -> core_exists c -> permitted c z k [Cls FOps 3] -> k_cls k = KSym -> enc_algorithm z ->
  has_nonce c k -> payload c <> None -> unless (seal_failure X) (enc0_encode X c tag true).
Proof.
  intros c z k tag HF HH HE HP HC HZ HN HL. unfold enc0_encode. destruct (size_phdr _ HH HE) as [B1 B2]. apply unless_bind; [apply unless_never; exact B1|]. intros p Hp.
  destruct (size_encrypt "Encrypt0" c z k eq_refl HF HH HE HP HC HZ HN HL) as [S1 S2].
  apply unless_bind; [apply unless_bind; [exact S1|intros; exact I]|]. intros b HB. apply bind_ok in HB as (e & He & HB). injection HB as <-.
  apply unless_never, size_emit; [reflexivity|reflexivity|]. cbn [forallb]. rewrite (bytes_item p (B2 _ Hp)), (uhdr_item _ HH HE), (bytes_item e (S2 _ He)). reflexivity.
Qed.

Lemma last_n_short : forall n (l : bytes), length (last_n n l) <= n.
Proof. intros n l. unfold last_n. rewrite skipn_length. lia. Qed.

Lemma tag_fits : forall z k t b, mac_algorithm z -> alg_compute_tag X (alg z) k t = Ok b -> fits b = true.
Proof.
  intros z k t b HZ H.
  assert (HK : (exists h n, alg_kind (alg z) = Some (AHmac h n) /\ n <= 64) \/ exists n l, alg_kind (alg z) = Some (ACbcMac n l)).
  { clear - HZ. destruct HZ as [HZ|HZ]; each HZ; [left|left|left|left|right|right|right|right]; eexists; eexists; try (split; [vm_compute; reflexivity|apply Nat.leb_le; reflexivity]); vm_compute; reflexivity. }
  assert (HB : length b <= 64); [|apply fits_lt; unfold blen; lia].
  unfold alg_compute_tag in H. destruct HK as [(h & n & EK & HN)|(n & l & EK)]; rewrite EK in H; apply bind_ok in H as (s & _ & H); injection H as <-.
  - rewrite firstn_length. lia.
  - unfold cbc_digest. destruct (Nat.eqb n 16); eapply Nat.le_trans; [apply last_n_short| |apply last_n_short|]; lia.
Qed.

Lemma size_mac : forall ctx c z k, wfc (CText (bs ctx)) = true -> sendable_headers c -> core_exists c -> permitted c z k [Cls FOps 9] -> k_cls k = KSym ->
  mac_algorithm z -> payload c <> None -> exists t, mac_compute X ctx c = Ok t /\ fits t = true.
Proof.
  intros ctx c z k HC1 HH HE HP HC HZ HN. pose proof (permitted_verify _ _ _ _ HP) as HV. destruct HP as (HA & HK & HT & _ & _).
  unfold mac_compute. rewrite HA. cbn [bind]. rewrite HK. rewrite HC in HV.
  change [MacCreateOp] with (map VClass [Cls FOps 9]). rewrite HV. cbn [bind]. rewrite (has_mac_ok z HZ). cbn [bind].
  assert (HST : unless never (mac_structure ctx c)).
  { unfold mac_structure. destruct (size_base c HH HE) as [B1 B2]. apply unless_bind; [exact B1|]. intros p Hp. pose proof (payload_fits c) as HPF.
    destruct (payload c) as [pl|]; [|elim HN; reflexivity]. apply (size_plain ctx [p; aad c; pl]); try assumption; [reflexivity|].
    repeat constructor; [apply B2; exact Hp|exact (aad_fits _ HE)|apply HPF; auto]. }
  destruct (mac_structure ctx c) as [t|e]; [|destruct HST]. cbn [bind].
  destruct (compute_tag_ok X (alg z) k t tt HT HC (has_mac_ok z HZ)) as (b & HB). exists b. split; [exact HB|]. exact (tag_fits _ _ _ _ HZ HB).
Qed.

Theorem size_mac0 : forall m z k tag, sendable_headers (m0_core m) -> core_exists (m0_core m) -> permitted (m0_core m) z k [Cls FOps 9] -> k_cls k = KSym -> mac_algorithm z ->
  payload (m0_core m) <> None -> unless never (snd (mac0_encode X m tag true)).
Proof.
  intros m z k tag HH HE HP HC HZ HL. unfold mac0_encode. cbv zeta. destruct (size_phdr _ HH HE) as [B1 B2]. destruct (phdr_encoded (m0_core m)) as [p|e]; [|exact B1].
  unfold mac0_compute_tag. destruct (size_mac "MAC0" (m0_core m) z k eq_refl HH HE HP HC HZ HL) as (t & -> & HT).
  cbn [snd]. apply size_emit; [reflexivity|reflexivity|]. cbn [app forallb]. rewrite (bytes_item p (B2 _ eq_refl)), (uhdr_item _ HH HE), (payload_item _ HE), (bytes_item t HT). reflexivity.
Qed.

End Size.
