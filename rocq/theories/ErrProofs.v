(** Which exceptions decoding can raise (C80). *)
From Coq Require Import NArith ZArith Bool String Lia.
From Coq Require Import Init.Byte List.
From Verif Require Import Bytes Value ValueProofs Cbor CborProofs Registry Crypto Keys Headers Algorithms Messages Recipients SpecKeys KeyProofs SpecErr.
Import ListNotations.
Local Open Scope result_scope.

(** Every exception of [r] is in [P]. *)
Definition within (P : exn -> Prop) {A} (r : result A) : Prop := forall e, r = Err e -> P e.

Lemma within_ok : forall (P : exn -> Prop) A (a : A), within P (Ok a).
Proof. intros P A a e H. discriminate. Qed.
Lemma within_err : forall (P : exn -> Prop) A e, P e -> within P (@Err A e).
Proof. intros P A e H e' E. injection E as <-. exact H. Qed.
Lemma within_bind : forall (P : exn -> Prop) A B (r : result A) (f : A -> result B), within P r -> (forall a, r = Ok a -> within P (f a)) -> within P (bind r f).
Proof. intros P A B [a|e] f HR HF e' H; cbn [bind] in H; [exact (HF a eq_refl e' H)|]. injection H as <-. apply HR. reflexivity. Qed.
Lemma within_impl : forall (P Q : exn -> Prop) A (r : result A), (forall e, P e -> Q e) -> within P r -> within Q r.
Proof. intros P Q A r H HR e E. apply H, HR, E. Qed.
Lemma within_mapM : forall (P : exn -> Prop) A B (f : A -> result B) l, (forall x, In x l -> within P (f x)) -> within P (mapM f l).
Proof.
  intros P A B f l. induction l as [|x l IH]; intros H; [apply within_ok|]. cbn [mapM]. apply within_bind; [apply H; left; reflexivity|].
  intros y _. apply within_bind; [apply IH; intros z HZ; apply H; right; exact HZ|]. intros ys _. apply within_ok.
Qed.

(** Structural steps; [finish] closes the leaves. *)
Ltac werr := apply within_err; cbn; tauto.
Ltac wstep := match goal with
  | |- within _ (Ok _) => apply within_ok
  | |- within _ (Err _) => werr
  | |- within _ (bind _ _) => apply within_bind; [|intros ? _]
  | |- within _ (match ?x with _ => _ end) => destruct x
  end.
Ltac wgo := repeat wstep.

(** ** CBOR *)

Definition cbor_exn (e : exn) : Prop := In e [CBORDecodeEOF; CBORDecodeValueError; FuelExhausted].
Lemma take_exn : forall n l, within cbor_exn (take n l).
Proof. intros. unfold take. wgo. Qed.
Lemma arg_exn : forall a i l, within cbor_exn (arg a i l).
Proof. intros. unfold arg. wgo; apply take_exn. Qed.
Lemma arg_fixed_exn : forall i l, within cbor_exn (arg_fixed i l).
Proof. intros. unfold arg_fixed. apply within_bind; [apply arg_exn|]. intros ? _. wgo. Qed.
Lemma take_string_exn : forall t n l, within cbor_exn (take_string t n l).
Proof. intros. unfold take_string. wgo; apply take_exn. Qed.
Lemma dec_chunks_exn : forall f t l, within cbor_exn (dec_chunks f t l).
Proof.
  induction f as [|f IH]; intros t l; cbn [dec_chunks]; [werr|]. wgo; first [apply arg_fixed_exn|apply take_string_exn|apply IH].
Qed.
Lemma dec_string_exn : forall f t i l, within cbor_exn (dec_string f t i l).
Proof. intros. unfold dec_string. wgo; first [apply arg_exn|apply take_string_exn|apply dec_chunks_exn]. Qed.
Lemma dec_special_exn : forall i l, within cbor_exn (dec_special i l).
Proof. intros. unfold dec_special. wgo; apply take_exn. Qed.
Lemma dec_exn : forall f,
  (forall l, within cbor_exn (dec f l)) /\ (forall n l, within cbor_exn (dec_seq f n l)) /\ (forall n l, within cbor_exn (dec_map f n l)) /\
  (forall l, within cbor_exn (dec_seq_indef f l)) /\ (forall l, within cbor_exn (dec_map_indef f l)).
Proof.
  induction f as [|f (I1 & I2 & I3 & I4 & I5)]; [repeat split; intros; werr|].
  repeat split; intros; cbn [dec dec_seq dec_map dec_seq_indef dec_map_indef];
    wgo; first [apply arg_fixed_exn|apply arg_exn|apply dec_string_exn|apply dec_special_exn|apply I1|apply I2|apply I3|apply I4|apply I5].
Qed.

Definition loads_exn (e : exn) : Prop := In e [CBORDecodeEOF; CBORDecodeValueError].
Lemma lift_exn : forall c imm, within loads_exn (lift imm c).
Proof.
  fix IH 1. intros c imm. destruct c; cbn [lift]; try (wgo; fail).
  - apply within_bind; [|intros ? _; wgo]. induction l as [|x l IHl]; [apply within_ok|]. cbn [mapM].
    apply within_bind; [apply IH|]. intros y _. apply within_bind; [exact IHl|]. intros ? _. apply within_ok.
  - apply within_bind; [|intros ? _; wgo]. induction l as [|[k v] l IHl]; [apply within_ok|]. cbn [mapM].
    apply within_bind.
    + apply within_bind; [apply IH|]. intros ? _. apply within_bind; [apply IH|]. intros ? _. apply within_ok.
    + intros y _. apply within_bind; [exact IHl|]. intros ? _. apply within_ok.
  - apply within_bind; [apply IH|]. intros v _. wgo.
Qed.
Lemma loads_bytes_exn : forall b, within loads_exn (loads_bytes b).
Proof.
  intros b. unfold loads_bytes. apply within_bind; [|intros [c r] _; apply lift_exn]. intros e HE.
  pose proof (proj1 (dec_exn (fuel_for b)) b e HE) as H. cbn in H |- *. destruct H as [H|[H|[H|[]]]]; auto.
  subst e. elim (decode_item_nofuel _ HE).
Qed.

Section Decode.
Variable X : crypto.
Definition decode_exn (e : exn) : Prop := In e documented \/ In e undocumented \/ curve_failure X e.
Local Notation W := (within decode_exn).
Ltac done_err := apply within_err; unfold decode_exn, documented, undocumented; cbn [In]; tauto.
Ltac dstep := match goal with
  | |- within _ (Ok _) => apply within_ok
  | |- within _ (Err _) => done_err
  | |- within _ (bind _ _) => apply within_bind; [|intros ? _]
  | |- within _ (match ?x with _ => _ end) => destruct x
  end.
Ltac dgo := repeat dstep.

Lemma loads_W : forall v, W (loads v).
Proof.
  intros v. unfold loads. destruct v; try done_err. eapply within_impl; [|apply loads_bytes_exn].
  intros e HE. unfold decode_exn, documented, undocumented. cbn in *. intuition.
Qed.
Lemma from_id_W : forall v f allow, W (from_id f allow v).
Proof.
  fix IH 1. intros v f allow. destruct v; cbn [from_id]; try (dgo; fail).
  apply within_bind; [|intros ? _; apply within_ok]. induction l as [|x l IHl]; [apply within_ok|]. cbn [mapM].
  apply within_bind; [apply IH|]. intros ? _. apply within_bind; [exact IHl|]. intros ? _. apply within_ok.
Qed.
Lemma parse_kp_W : forall kp v, W (parse_kp kp v).
Proof. intros. unfold parse_kp. repeat match goal with |- within _ (match ?x with _ => _ end) => destruct x end; first [apply from_id_W|apply within_ok]. Qed.
Lemma transform_params_W : forall c allow o acc, W (transform_params c allow o acc).
Proof.
  intros c allow o. induction o as [|[a v] o IH]; intros acc; cbn [transform_params]; [apply within_ok|].
  apply within_bind; [apply from_id_W|intros ? _]. apply within_bind; [apply parse_kp_W|intros ? _].
  destruct (hashable _); [apply IH|dgo].
Qed.
Lemma py_len_W : forall v, W (py_len v).
Proof. intros v. unfold py_len. dgo. Qed.
Lemma base_init_W : forall c d, W (base_init c d).
Proof. intros. unfold base_init. destruct (dget _ _); [|apply within_ok]. apply within_bind; [apply py_len_W|intros ? _]. dgo. Qed.
Lemma common_init_W : forall c o a, W (common_init c o a).
Proof.
  intros. unfold common_init, opt_items. apply within_bind; [dgo|intros ? _]. apply within_bind; [apply transform_params_W|intros ? _].
  destruct (veqb _ _); [apply base_init_W|done_err].
Qed.
Lemma set_bytes_W : forall c v k, W (set_bytes_param c v k).
Proof. intros. unfold set_bytes_param. dgo. Qed.
Lemma set_unless_W : forall c v k, W (set_unless_empty c v k).
Proof. intros. unfold set_unless_empty. destruct (veqb _ _); [apply within_ok|apply set_bytes_W]. Qed.
Lemma set_crv_W : forall c t v k, W (set_crv c t v k).
Proof. intros. unfold set_crv. apply within_bind; [apply from_id_W|intros ? _]. dgo. Qed.
Lemma set_k_W : forall v k, W (set_k v k).
Proof. intros. unfold set_k. dgo. Qed.
Lemma as_bytes_W : forall v, W (as_bytes v).
Proof. intros. unfold as_bytes. dgo. Qed.
Lemma to_bytes_W : forall c p n, In (c, curve_size c) ec2_curves -> (n = fst p \/ n = snd p) ->
  (exists d, x_ec_pub X c d = Ok p) \/ (exists b, x_ec_point X c b = Ok p) -> W (to_bytes_checked (curve_size c) n).
Proof.
  intros c p n HI HN HX. unfold to_bytes_checked. destruct (N.ltb n _) eqn:E; [apply within_ok|]. apply within_err. right. right. right. right.
  split; [reflexivity|]. exists c, p. split; [|exact HX]. apply N.ltb_ge in E. exists (curve_size c). split; [exact HI|]. destruct HN as [-> | ->]; auto.
Qed.
Lemma sym_init_W : forall k o a, W (sym_init k o a).
Proof. intros. unfold sym_init. apply within_bind; [apply common_init_W|intros ? _]. destruct (veqb _ _); [done_err|apply set_k_W]. Qed.
Lemma okp_init_W : forall c x d o a, W (okp_init c x d o a).
Proof.
  intros. unfold okp_init. apply within_bind; [apply common_init_W|intros ? _]. apply within_bind; [apply py_len_W|intros ? _].
  apply within_bind; [dgo; apply py_len_W|intros ? _]. dgo; first [apply set_crv_W|apply set_unless_W].
Qed.
Lemma private_W : forall c d x y, In (c, curve_size c) ec2_curves -> W (ec2_from_private X c d x y).
Proof.
  intros. unfold ec2_from_private. apply within_bind; [apply as_bytes_W|intros db _].
  apply within_bind; [intros e HE; right; right; left; eauto|intros [px py] HP]. dgo; apply (to_bytes_W c (px, py)); cbn [fst snd]; eauto.
Qed.
Lemma decompress_W : forall c x, In (c, curve_size c) ec2_curves -> W (ec2_decompress X c x).
Proof.
  intros. unfold ec2_decompress. apply within_bind; [apply as_bytes_W|intros db _].
  apply within_bind; [intros e HE; right; right; right; left; eauto|intros [px py] HP]. dgo; apply (to_bytes_W c (px, py)); cbn [fst snd]; eauto.
Qed.
Lemma ec2_init_W : forall c x y d o a, W (ec2_init X c x y d o a).
Proof.
  intros. unfold ec2_init. apply within_bind; [apply common_init_W|intros ? _]. destruct (is_none c); [done_err|].
  apply within_bind; [apply set_crv_W|intros k1 HC].
  assert (HI : In (crv_id k1, curve_size (crv_id k1)) ec2_curves).
  { apply set_crv_ok in HC as (w & _ & HW & HU). destruct (HW KEC2 eq_refl) as (z & -> & HZ).
    apply ec2_curve_in. apply (curve_ids_kty KEC2). unfold crv_id. apply updates_same in HU. unfold param in HU. rewrite HU. exact HZ. }
  destruct (negb (truthy x) && negb (truthy y) && negb (truthy d)); [done_err|]. destruct (negb (truthy d) && negb (truthy x)); [done_err|].
  apply within_bind; [destruct (truthy d); [apply private_W; exact HI|apply within_ok]|intros [x1 y1] _].
  apply within_bind; [destruct (_ && _); [apply decompress_W; exact HI|apply within_ok]|intros ? _].
  apply within_bind; [apply set_unless_W|intros ? _]. apply within_bind; [apply set_unless_W|intros ? _]. apply set_unless_W.
Qed.
Lemma all_len_W : forall b l, W (all_len b l).
Proof.
  intros b l. induction l as [|v l IH]; cbn [all_len]; [apply within_ok|]. apply within_bind; [apply py_len_W|intros ? _].
  destruct (Bool.eqb _ _); [exact IH|apply within_ok].
Qed.
Lemma rsa_init_W : forall r o a, W (rsa_init r o a).
Proof.
  intros. unfold rsa_init, rsa_valid. apply within_bind.
  - apply within_bind; [apply all_len_W|intros ? _]. apply within_bind; [destruct a0; [apply all_len_W|apply within_ok]|intros [] _; [apply within_ok|]].
    apply within_bind; [apply all_len_W|intros ? _]. apply within_bind; [destruct a1; [apply all_len_W|apply within_ok]|intros [] _; [apply within_ok|apply all_len_W]].
  - intros ok _. destruct (negb ok); [done_err|]. apply within_bind; [apply common_init_W|intros ? _].
    do 2 (apply within_bind; [apply set_bytes_W|intros ? _]). do 6 (apply within_bind; [apply set_unless_W|intros ? _]). apply within_ok.
Qed.
Lemma map_get_W : forall m k, W (map_get m k).
Proof. intros. unfold map_get, key_transform. dgo; apply from_id_W. Qed.
Lemma extract_W : forall m c d, W (extract m c d).
Proof. intros. unfold extract. dgo; apply map_get_W. Qed.
Lemma items_of_W : forall m, W (items_of m).
Proof. intros. unfold items_of. dgo. Qed.
Lemma list_update_W : forall l, W (list_update l).
Proof.
  induction l as [|x l IH]; cbn [list_update]; [apply within_ok|]. apply within_bind; [apply py_len_W|intros n _].
  destruct (negb _); [done_err|]. destruct (match x with VList (k :: _) | VTuple (k :: _) => hashable k | _ => true end); [exact IH|done_err].
Qed.
Lemma list_from_dict_W : forall l, W (@Err key (list_from_dict l)).
Proof.
  intros l. unfold list_from_dict. destruct (existsb _ l); [done_err|].
  destruct (existsb _ l); [|destruct (existsb _ l); done_err].
  destruct (nth_error l 1) as [v|]; [|done_err]. destruct (negb _); [done_err|].
  destruct (key_type_lookup _ _) as [c|]; [|done_err].
  assert (HW : W (_ <- mapM (list_extract l) (extracted c) ;; list_update l)).
  { apply within_bind; [|intros ? _; apply list_update_W]. apply within_mapM. intros p _. unfold list_extract.
    destruct (existsb _ l); [done_err|]. destruct (existsb _ l); [destruct (Nat.ltb _ _); [done_err|apply within_ok]|].
    destruct (existsb _ l); [done_err|apply within_ok]. }
  destruct (_ <- mapM (list_extract l) (extracted c) ;; list_update l) as [?|e]; [done_err|].
  apply within_err. exact (HW e eq_refl).
Qed.
Lemma from_dict_W : forall m, W (from_dict X m).
Proof.
  assert (HD : forall v m, W (dispatch_kty X v m)).
  { intros v m. unfold dispatch_kty. destruct (negb _); [done_err|]. destruct (key_type_lookup _ _) as [[]|]; [| | | |done_err].
    - unfold sym_from_dict. apply within_bind; [apply extract_W|intros ? _]. apply within_bind; [apply items_of_W|intros ? _]. apply sym_init_W.
    - unfold okp_from_dict. do 3 (apply within_bind; [apply extract_W|intros ? _]). apply within_bind; [apply items_of_W|intros ? _]. apply okp_init_W.
    - unfold ec2_from_dict. do 4 (apply within_bind; [apply extract_W|intros ? _]). apply within_bind; [apply items_of_W|intros ? _]. apply ec2_init_W.
    - unfold rsa_from_dict. do 12 (apply within_bind; [apply extract_W|intros ? _]). apply within_bind; [apply items_of_W|intros ? _]. apply rsa_init_W. }
  intros m. unfold from_dict. destruct m; try done_err; try apply list_from_dict_W; dgo; first [apply map_get_W|apply HD].
Qed.
Lemma parse_value_W : forall a v, W (parse_value X a v).
Proof.
  assert (HK : forall v, W (k <- from_dict X v ;; Ok (kval k))).
  { intros v. apply within_bind; [apply from_dict_W|intros ? _; apply within_ok]. }
  intros a v. unfold parse_value.
  repeat match goal with |- within _ (match ?x with _ => _ end) => destruct x end;
    first [apply within_ok|apply from_id_W|apply HK|unfold crit_is_array; dgo; fail|unfold content_type_is_uint_or_tstr; dgo; fail|unfold is_bstr; dgo; fail].
Qed.
Lemma parse_items_W : forall allow h acc, W (parse_items X allow h acc).
Proof.
  intros allow h. induction h as [|[k v] h IH]; intros acc; cbn [parse_items]; [apply within_ok|].
  apply within_bind; [apply from_id_W|intros ? _]. apply within_bind; [apply parse_value_W|intros ? _]. apply IH.
Qed.
Lemma parse_header_W : forall allow h, W (parse_header X allow h).
Proof. intros. unfold parse_header. destruct h; try done_err; apply parse_items_W. Qed.
Lemma check_payload_W : forall v, W (check_payload v).
Proof. intros. unfold check_payload. dgo. Qed.
Lemma core_init_W : forall a, W (core_init X a).
Proof.
  intros a. unfold core_init. apply within_bind.
  - destruct (a_phdr a); destruct (a_phdr_encoded a); try apply within_ok; try done_err; (destruct (veqb _ _); [apply within_ok|apply loads_W]).
  - intros ph _. destruct ph; try done_err. destruct (match a_uhdr a with VNone => _ | _ => _ end); try done_err.
    apply within_bind; [apply parse_items_W|intros ? _]. apply within_bind; [apply parse_items_W|intros ? _].
    apply within_bind; [destruct (a_phdr_encoded a); try done_err; apply within_ok|intros ? _].
    apply within_bind; [apply check_payload_W|intros ? _]. apply within_bind; [apply as_bytes_W|intros ? _].
    apply within_bind; [unfold check_key; dgo|intros ? _]. apply within_ok.
Qed.
Lemma core_from_obj_W : forall allow o, W (core_from_obj X allow o).
Proof.
  intros. unfold core_from_obj. destruct o as [|p [|u o]]; try done_err. apply within_bind; [apply core_init_W|intros ? _].
  destruct o; [done_err|]. apply within_bind; [apply check_payload_W|intros ? _; apply within_ok].
Qed.
Lemma py_index_W : forall v i, W (py_index v i).
Proof. intros. unfold py_index. dgo. Qed.
Lemma py_iter_W : forall v, W (py_iter v).
Proof. intros. unfold py_iter. dgo. Qed.
Lemma get_attr_W : forall c a, W (get_attr c a).
Proof. intros. unfold get_attr, get_attr_default. dgo. Qed.
Lemma alg_in_W : forall a l, W (alg_in a l).
Proof. intros. unfold alg_in. dgo. Qed.
Lemma rcpt_from_obj_W : forall allow ctx id rc r, W (rcpt_from_obj X allow ctx id rc r).
Proof.
  intros. unfold rcpt_from_obj. destruct r; try done_err. apply within_bind; [apply core_from_obj_W|intros [c rest] _].
  destruct rc; cbv zeta; dgo; first [apply get_attr_W|apply alg_in_W].
Qed.
Lemma create_recipient_W : forall allow ctx id r, W (create_recipient X allow ctx id r).
Proof.
  intros. unfold create_recipient. apply within_bind; [apply py_index_W|intros ? _]. apply within_bind.
  { destruct (veqb _ _); [apply within_ok|]. apply within_bind; [apply loads_W|intros ? _].
    apply within_bind; [apply parse_header_W|intros ? _; apply within_ok]. }
  intros ? _. apply within_bind; [apply py_index_W|intros ? _]. apply within_bind; [apply parse_header_W|intros ? _]. cbv zeta.
  destruct (is_none _); [done_err|]. apply within_bind; [|intros ? _; apply rcpt_from_obj_W]. unfold rcpt_class_of. dgo.
Qed.
Lemma create_all_W : forall allow ctx l id, W (create_all X allow ctx id l).
Proof.
  intros allow ctx l. induction l as [|r l IH]; intros id; cbn [create_all]; [apply within_ok|].
  apply within_bind; [apply create_recipient_W|intros ? _]. apply within_bind; [apply IH|intros ? _; apply within_ok].
Qed.
Lemma recipients_from_W : forall allow ctx rest, W (recipients_from X allow ctx rest).
Proof.
  intros. unfold recipients_from. match goal with |- within _ (match ?r with _ => _ end) => assert (H : W r); [|destruct r as [rs|e]] end.
  - destruct rest; [done_err|]. apply within_bind; [apply py_iter_W|intros ? _; apply create_all_W].
  - apply within_ok.
  - destruct (_ || _); [apply within_ok|]. apply within_err. apply H. reflexivity.
Qed.
Lemma from_cose_obj_W : forall allow t o, W (from_cose_obj X allow t o).
Proof.
  assert (HS : forall allow r, W (signer_from_obj X allow r)).
  { intros. unfold signer_from_obj. destruct r; try done_err. apply within_bind; [apply core_from_obj_W|intros [] _; apply within_ok]. }
  intros. unfold from_cose_obj.
  repeat match goal with |- within _ (if ?b then _ else _) => destruct b end; [..|done_err]; (apply within_bind; [|intros ? _; apply within_ok]).
  - unfold enc0_from_obj. apply within_bind; [apply core_from_obj_W|intros [] _; apply within_ok].
  - unfold mac0_from_obj. apply within_bind; [apply core_from_obj_W|intros [] _; dgo].
  - unfold sign1_from_obj. apply within_bind; [apply core_from_obj_W|intros [] _; dgo].
  - unfold enc_from_obj. apply within_bind; [apply core_from_obj_W|intros [] _]. apply within_bind; [apply recipients_from_W|intros ? _; apply within_ok].
  - unfold mac_from_obj. apply within_bind; [apply core_from_obj_W|intros [c [|y rest]] _; [done_err|]].
    apply within_bind; [apply recipients_from_W|intros ? _; apply within_ok].
  - unfold sign_from_obj. apply within_bind; [apply core_from_obj_W|intros [c [|y rest]] _; [done_err|]].
    apply within_bind; [apply py_iter_W|intros ? _]. apply within_bind; [apply within_mapM; intros; apply HS|intros ? _; apply within_ok].
Qed.
Lemma decode_W : forall e allow v, W (decode X e allow v).
Proof.
  intros e allow v. unfold decode. pose proof (loads_W v) as HL. destruct (loads v) as [w|x].
  - destruct w; try done_err. destruct w; try done_err. apply within_bind; [apply from_cose_obj_W|intros ? _]. dgo.
  - destruct (is_value_error x) eqn:E; [done_err|]. apply within_err. apply HL. reflexivity.
Qed.

(** What an application sees when the input itself is at fault. *)
Lemma key_decode_W : forall v, W (key_decode X v).
Proof. intros v. unfold key_decode. apply within_bind; [apply loads_W|intros ? _; apply from_dict_W]. Qed.
End Decode.
