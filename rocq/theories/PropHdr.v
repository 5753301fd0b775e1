(** Properties of header maps, decoding and key use (C20-C23, C26-C29, C32, C55, C71). *)
From Coq Require Import NArith ZArith Bool String.
From Coq Require Import Init.Byte List.
From Verif Require Import Bytes Value Cbor SpecData Registry Crypto Keys Algorithms Headers Messages Recipients
  SpecRegistry SpecKeys KeyProofs SpecRfc SpecStruct SpecCrypto Toy SpecHdr HdrProofs HdrProofs2.
Import ListNotations.

Lemma protected_map_unique : forall h e d d', protected_map h e d -> protected_map h e d' -> d = d'.
Proof.
  intros h e d d' [[-> A]|[(-> & b & -> & C)|(-> & B & ->)]] [[A' B']|[(A' & b' & B' & C')|(A' & B' & ->)]];
    try discriminate; try congruence.
  - destruct B' as [B'|B']; [discriminate|]. injection B' as ->. vm_compute in C. discriminate.
  - destruct B as [->| ->]; [discriminate|]. injection B' as <-. vm_compute in C'. discriminate.
Qed.
Lemma unprotected_map_unique : forall h d d', unprotected_map h d -> unprotected_map h d' -> d = d'.
Proof. intros h d d' [->|[-> ->]] [A|[A B]]; congruence. Qed.

(** Messages used by the examples. *)
Definition ex_ec2 : key :=
  Key KEC2 [(VClass KpKty, KtyEC2); (VClass EC2KpCurve, VClass (Cls FCrv 1));
            (VClass EC2KpX, VBytes [x07]); (VClass EC2KpY, VBytes [x08]); (VClass EC2KpD, VBytes [x07])] [].
Definition ex_sym : key :=
  Key KSym [(VClass KpKty, KtySymmetric); (VClass SymKpK, VBytes (repeat x2a 16))] [].
Definition ex_msg (p u : dict) (pl : bytes) (k : key) : core :=
  Core p None u [] false (Some pl) [] (Some k).
Definition wrong {A} (d : A) (r : result A) : A := match r with Ok a => a | Err _ => d end.

(** ** C20: received protected headers *)

(** The protected bytes of a decoded message are the received ones, and they are the
    protected field of whatever is authenticated (the empty string for an empty map). *)
Theorem C20_received_bytes_authenticated : forall X e allow b t p obj m,
  loads_bytes b = Ok (VTag t (VList (VBytes p :: obj))) -> decode X e allow (VBytes b) = Ok m ->
  phdr_encoded (message_core m) = Ok p /\
  (phdr (message_core m) <> [] -> protected_field (message_core m) p) /\
  (phdr (message_core m) = [] -> protected_field (message_core m) []).
Proof.
  intros X e allow b t p obj m HB H. destruct (decode_protected X _ _ _ _ _ _ _ HB H) as (_ & HP & HF).
  split; [assumption|]. destruct (phdr (message_core m)); split; intros Q; try congruence; assumption.
Qed.
Print Assumptions C20_received_bytes_authenticated.

Theorem C20_signers_received_bytes : forall X e allow b p u pl ss rest m,
  loads_bytes b = Ok (VTag 98 (VList (p :: u :: pl :: VList ss :: rest))) ->
  decode X e allow (VBytes b) = Ok (MSign m) ->
  Forall2 (fun r s => forall q r', r = VList (VBytes q :: r') -> phdr_encoded s = Ok q) ss (sm_signers m).
Proof.
  intros X e allow b p u pl ss rest m HB H. pose proof (decode_signers_protected X _ _ _ _ _ _ _ _ _ HB H) as HF.
  clear HB H. induction HF as [|r s rs sl Q HF IH]; constructor; [|assumption].
  intros q r' E. destruct (Q q r' E) as [_ QP]. exact QP.
Qed.
Print Assumptions C20_signers_received_bytes.

(** Encoding emits these bytes as the first field, for every kind of message. *)
Theorem C20_reencoding_emits_them : forall X seed m p,
  phdr_encoded (message_core m) = Ok p ->
  let starts b tag := exists l, b = maybe_tag tag (tag_of_class m) (rfc_array (rfc_bstr p :: l)) in
  match m with
  | MSign1 m => forall tag sign d b, sign1_encode X seed m tag sign d = Ok b -> starts b tag
  | MSign m => forall tag d b, sign_encode X seed m tag d = Ok b -> starts b tag
  | MEnc0 c => forall tag encrypt b, enc0_encode X c tag encrypt = Ok b -> starts b tag
  | MMac0 m => forall tag mac b, snd (mac0_encode X m tag mac) = Ok b -> starts b tag
  | MEnc m => forall tag encrypt b, snd (encm_encode X seed m tag encrypt) = Ok b -> starts b tag
  | MMac m => forall tag mac b, snd (macm_encode X seed m tag mac) = Ok b -> starts b tag
  end.
Proof.
  intros X seed m p HP starts. destruct m; cbn [message_core tag_of_class] in *; subst starts; intros.
  - eapply sign1_encode_protected; eassumption.
  - eapply sign_encode_protected; eassumption.
  - eapply enc0_encode_protected; eassumption.
  - eapply mac0_encode_protected; eassumption.
  - eapply encm_encode_protected; eassumption.
  - eapply macm_encode_protected; eassumption.
Qed.
Print Assumptions C20_reencoding_emits_them.

(** A protected header in a non-shortest encoding (the map {1: -7} with a two-byte
    head) is kept as received. *)
Example C20_example :
  let p := [xb8; x01; x18; x01; x26] in
  let b := [xd2; x84; x45] ++ p ++ [xa0; x42; x68; x69; x43; x01; x02; x03] in
  exists m, decode toy None true (VBytes b) = Ok (MSign1 m) /\
    phdr_encoded (s1_core m) = Ok p /\ phdr (s1_core m) = [(Algorithm, VClass (Cls FAlg (-7)))] /\
    exists b', sign1_encode toy 0 (Sign1 (with_key (s1_core m) (Some ex_ec2)) (s1_sig m)) true true VNone = Ok b' /\
      firstn 8 b' = firstn 8 b.
Proof.
  cbv zeta. eexists. split; [vm_compute; reflexivity|]. split; [vm_compute; reflexivity|].
  split; [vm_compute; reflexivity|]. eexists. split; [vm_compute; reflexivity|]. vm_compute. reflexivity.
Qed.

(** ** C21: header histories *)

(** A message that was built locally: after any sequence of header operations the encoded
    protected header is the encoding of the current map. *)
Theorem C21_bytes_follow_map_partial : forall X a c history, core_init X a = Ok c -> a_phdr_encoded a = VNone ->
  phdr_encoded (hdr_run c history) = map_encoding (hdr_run c history).
Proof.
  intros X a c history H HE. apply fresh_encoding. apply hdr_run_fresh.
  apply core_init_inv in H as (pd & ud & _ & _ & _ & _ & HR & _). rewrite HE in HR. exact HR.
Qed.
Print Assumptions C21_bytes_follow_map_partial.

(** A decoded message: as long as the map is not changed in place, the encoded protected
    header is that of the current map, or the received bytes if the map is as received. *)
Theorem C21_assignments_partial : forall c history, Forall (fun o => ~ in_place o) history ->
  phdr_encoded (hdr_run c history) = map_encoding (hdr_run c history) \/
  (phdr (hdr_run c history) = phdr c /\ phdr_encoded (hdr_run c history) = phdr_encoded c).
Proof.
  intros c history HF. destruct (hdr_run_not_in_place history c HF) as [H|[H1 [H2 H3]]].
  - left. apply fresh_encoding. assumption.
  - right. split; [assumption|]. unfold phdr_encoded, dumps_msg. rewrite H1, H2, H3. reflexivity.
Qed.
Print Assumptions C21_assignments_partial.

(** [msg.phdr[KID] = b'x'] on any decoded message with a protected header: the map has
    the new entry, the encoded (and authenticated) bytes do not. *)
Theorem C21_in_place_refuted : forall X e allow b t p obj m k v,
  loads_bytes b = Ok (VTag t (VList (VBytes p :: obj))) -> decode X e allow (VBytes b) = Ok m ->
  hashable k = true ->
  let c := hdr_run (message_core m) [HSetPItem k v] in
  dget (phdr c) k = Some v /\ phdr_encoded c = Ok p.
Proof.
  intros X e allow b t p obj m k v HB H HH c. destruct (decode_protected X _ _ _ _ _ _ _ HB H) as (HR & _ & _).
  subst c. unfold hdr_run. cbn [fold_left hdr_step]. rewrite HH. cbn [fst phdr with_phdr]. split.
  - apply ValueProofs.dget_dset_same. apply ValueProofs.keyeq_refl.
  - unfold phdr_encoded. cbn [phdr_raw with_phdr]. rewrite HR. reflexivity.
Qed.
Print Assumptions C21_in_place_refuted.

Example C21_example :
  let c := ex_msg [(Algorithm, VClass (Cls FAlg (-7)))] [] (bs "hi") ex_ec2 in
  let c' := hdr_run c [HSetPItem KID (VBytes (bs "11")); HUpdatePhdr (VDict [(VInt 99, VInt 1)]); HDelPItem Algorithm] in
  phdr_encoded c = Ok [xa1; x01; x26] /\
  phdr_encoded c' = Ok [xa2; x04; x42; x31; x31; x18; x63; x01].
Proof. vm_compute. split; reflexivity. Qed.

Example C21_refuted_example :
  let b := [xd2; x84; x43; xa1; x01; x26; xa0; x42; x68; x69; x43; x01; x02; x03] in
  exists m, decode toy None true (VBytes b) = Ok m /\
    let c := hdr_run (message_core m) [HSetPItem KID (VBytes (bs "11"))] in
    phdr_encoded c = Ok [xa1; x01; x26] /\ map_encoding c = Ok [xa2; x01; x26; x04; x42; x31; x31].
Proof. cbv zeta. eexists. split; [vm_compute; reflexivity|]. vm_compute. split; reflexivity. Qed.

(** ** C22: dispatch on the tag *)

Theorem C22_dispatch : forall X allow v m, decode X None allow v = Ok m ->
  In (tag_of_class m) cose_tags /\
  exists b obj, v = VBytes b /\ loads_bytes b = Ok (VTag (tag_of_class m) (VList obj)).
Proof.
  intros X allow v m H. apply decode_inv in H as (b & obj & -> & HL & _).
  assert (E : message_tag m = tag_of_class m) by (destruct m; reflexivity). rewrite E in HL.
  split; [destruct m; cbn; auto 10|]. exists b, obj. split; [reflexivity|assumption].
Qed.
Print Assumptions C22_dispatch.

Theorem C22_other_input_rejected : forall X e allow v,
  (forall b t obj, v = VBytes b -> loads_bytes b = Ok (VTag t (VList obj)) -> ~ In t cose_tags) ->
  exists x, decode X e allow v = Err x.
Proof.
  intros X e allow v H. destruct (decode X e allow v) as [m|x] eqn:E; [|eauto]. exfalso.
  apply decode_inv in E as (b & obj & -> & HL & _). eapply H; [reflexivity|exact HL|]. destruct m; cbn; auto 10.
Qed.
Print Assumptions C22_other_input_rejected.

(** Calling [decode] on a message class is calling it on CoseMessage and insisting on the
    class. *)
Theorem C22_expected_class : forall X t allow v m,
  decode X (Some t) allow v = Ok m <-> decode X None allow v = Ok m /\ tag_of_class m = t.
Proof.
  intros X t allow v m.
  assert (E : message_tag m = tag_of_class m) by (destruct m; reflexivity). rewrite <- E.
  unfold decode. destruct (loads v) as [w|x]; [|split; [discriminate|intros [H _]; discriminate]].
  destruct w; try (split; [discriminate|intros [H _]; discriminate]).
  destruct w; try (split; [discriminate|intros [H _]; discriminate]).
  destruct (from_cose_obj X allow t0 l) as [m'|x]; [|split; [discriminate|intros [H _]; discriminate]].
  cbn [bind]. destruct (N.eqb (message_tag m') t) eqn:Q; split.
  - intros H. injection H as <-. apply N.eqb_eq in Q. split; [reflexivity|assumption].
  - intros [H _]. exact H.
  - discriminate.
  - intros [H HT]. injection H as <-. apply N.eqb_neq in Q. contradiction.
Qed.
Print Assumptions C22_expected_class.

(** A tagged array for each class; the untagged one is refused, and so is the wrong class. *)
Example C22_example :
  let body := [x43; xa1; x01; x26; xa0; x42; x68; x69; x43; x01; x02; x03] in
  (exists m, decode toy None true (VBytes ([xd2; x84] ++ body)) = Ok (MSign1 m)) /\
  (exists m, decode toy None true (VBytes ([xd1; x84] ++ body)) = Ok (MMac0 m)) /\
  (exists x, decode toy None true (VBytes ([x84] ++ body)) = Err x) /\
  (exists x, decode toy None true (VBytes ([xd8; x63; x84] ++ body)) = Err x) /\
  (exists x, decode toy (Some 17%N) true (VBytes ([xd2; x84] ++ body)) = Err x).
Proof.
  cbv zeta. split; [eexists; vm_compute; reflexivity|]. split; [eexists; vm_compute; reflexivity|].
  split; [eexists; vm_compute; reflexivity|]. split; eexists; vm_compute; reflexivity.
Qed.

(** ** C23: the whole input *)

(** The property is false of every accepted input: anything may follow. *)
Theorem C23_whole_input_refuted : forall X e allow b m junk,
  decode X e allow (VBytes b) = Ok m -> decode X e allow (VBytes (b ++ junk)) = Ok m.
Proof. exact decode_ext. Qed.
Print Assumptions C23_whole_input_refuted.

(** What holds: the input starts with one complete item which is the message, and the
    rest of the input has no influence. *)
Theorem C23_one_item_partial : forall X e allow b m, decode X e allow (VBytes b) = Ok m ->
  exists item rest, b = item ++ rest /\ (exists c, decode_item item = Ok (c, [])) /\
    forall other, decode X e allow (VBytes (item ++ other)) = Ok m.
Proof.
  intros X e allow b m H. destruct (decode_one_item X e allow b m H) as (c & q & r & -> & HQ & HD).
  exists q, r. split; [reflexivity|]. split; [eauto|]. intros other. apply decode_ext. assumption.
Qed.
Print Assumptions C23_one_item_partial.

Example C23_example :
  let b := [xd2; x84; x43; xa1; x01; x26; xa0; x42; x68; x69; x43; x01; x02; x03] in
  exists m, decode toy None true (VBytes b) = Ok m /\ decode toy None true (VBytes (b ++ bs "junk")) = Ok m.
Proof. cbv zeta. eexists. split; vm_compute; reflexivity. Qed.

(** ** C26: normalisation *)

Theorem C26_constructed_normal : forall X a c, core_init X a = Ok c ->
  exists pd ud, protected_map (a_phdr a) (a_phdr_encoded a) pd /\ unprotected_map (a_uhdr a) ud /\
    normal_form X pd (phdr c) /\ normal_form X ud (uhdr c).
Proof.
  intros X a c H. apply core_init_inv in H as (pd & ud & HP & HU & H1 & H2 & _).
  exists pd, ud. split; [assumption|]. split; [assumption|]. split; eapply parse_items_normal; eassumption.
Qed.
Print Assumptions C26_constructed_normal.

Theorem C26_decoded_normal : forall X e allow v m, decode X e allow v = Ok m ->
  exists b t p u rest pd ud, v = VBytes b /\ loads_bytes b = Ok (VTag t (VList (p :: u :: rest))) /\
    protected_map VNone p pd /\ unprotected_map u ud /\
    normal_form X pd (phdr (message_core m)) /\ normal_form X ud (uhdr (message_core m)).
Proof.
  intros X e allow v m H. apply decode_inv in H as (b & obj & -> & HL & _ & _ & rest & HC).
  apply core_from_obj_inv in HC as (p & u & pl & c0 & -> & HI & _ & EC).
  apply core_init_inv in HI as (pd & ud & HP & HU & H1 & H2 & _). cbn [a_phdr a_phdr_encoded a_uhdr a_allow] in *.
  exists b, (message_tag m), p, u, (pl :: rest), pd, ud. split; [reflexivity|]. split; [assumption|].
  split; [assumption|]. split; [assumption|]. rewrite EC. cbn [phdr uhdr with_payload].
  split; eapply parse_items_normal; eassumption.
Qed.
Print Assumptions C26_decoded_normal.

(** All five spellings of kid, and an algorithm by name; the last one wins. *)
Example C26_example :
  let d := [(VStr (bs "kid"), VBytes [x01]); (VInt 4, VBytes [x02]); (KID, VBytes [x03]);
            (VStr (bs "alg"), VStr (bs "es256")); (VBool true, VInt (-8)); (VStr (bs "Kid"), VBytes [x05])] in
  exists c, core_init toy (Args (VDict d) VNone VNone (VBytes []) VNone VNone false true) = Ok c /\
    phdr c = [(KID, VBytes [x05]); (Algorithm, VClass (Cls FAlg (-8)))].
Proof. cbv zeta. eexists. split; vm_compute; reflexivity. Qed.

(** ** C27: typed values *)

Theorem C27_given_values_partial : forall X a c pd ud, core_init X a = Ok c ->
  protected_map (a_phdr a) (a_phdr_encoded a) pd -> unprotected_map (a_uhdr a) ud ->
  forall h n k v, In (h, n) (registered FHdr) -> In (k, v) (pd ++ ud) -> spells h n k -> legal_value h v.
Proof.
  intros X a c pd ud H HP HU h n k v HI HIn HS.
  apply core_init_inv in H as (pd' & ud' & HP' & HU' & H1 & H2 & _).
  pose proof (protected_map_unique _ _ _ _ HP' HP) as ->. pose proof (unprotected_map_unique _ _ _ HU' HU) as ->.
  apply in_app_iff in HIn as [HIn|HIn];
    [eapply (parse_items_legal X _ _ _ _ H1)|eapply (parse_items_legal X _ _ _ _ H2)]; eassumption.
Qed.
Print Assumptions C27_given_values_partial.

Theorem C27_stored_values_partial : forall X a c, core_init X a = Ok c ->
  legal_headers (phdr c) /\ legal_headers (uhdr c).
Proof.
  intros X a c H. apply core_init_inv in H as (pd & ud & _ & _ & H1 & H2 & _).
  split; eapply parse_items_stored_legal; eassumption.
Qed.
Print Assumptions C27_stored_values_partial.

Theorem C27_decoded_values_partial : forall X e allow v m, decode X e allow v = Ok m ->
  legal_headers (phdr (message_core m)) /\ legal_headers (uhdr (message_core m)).
Proof.
  intros X e allow v m H. apply decode_inv in H as (b & obj & -> & HL & _ & _ & rest & HC).
  apply core_from_obj_inv in HC as (p & u & pl & c0 & -> & HI & _ & EC). rewrite EC. cbn [phdr uhdr with_payload].
  eapply C27_stored_values_partial. exact HI.
Qed.
Print Assumptions C27_decoded_values_partial.

(** False in full: a received content type [true] and a received algorithm [[]] are
    accepted, and the algorithm [true] is taken for A128GCM. *)
Theorem C27_typed_values_refuted : forall X, exists b1 b2 m1 m2,
  decode X None true (VBytes b1) = Ok m1 /\ dget (uhdr (message_core m1)) ContentType = Some (VBool true) /\
  dget (phdr (message_core m1)) Algorithm = Some (VClass (Cls FAlg 1)) /\
  loads_bytes [xa1; x01; xf5] = Ok (VDict [(VInt 1, VBool true)]) /\ firstn 6 b1 = [xd0; x83; x43; xa1; x01; xf5] /\
  decode X None true (VBytes b2) = Ok m2 /\ dget (phdr (message_core m2)) Algorithm = Some (VList []).
Proof.
  intros X. exists ([xd0; x83; x43; xa1; x01; xf5; xa1; x03; xf5; x41; x00]).
  exists ([xd0; x83; x43; xa1; x01; x80; xa0; x41; x00]). eexists. eexists.
  split; [vm_compute; reflexivity|]. split; [vm_compute; reflexivity|]. split; [vm_compute; reflexivity|].
  split; [vm_compute; reflexivity|]. split; [reflexivity|]. split; [vm_compute; reflexivity|]. vm_compute. reflexivity.
Qed.
Print Assumptions C27_typed_values_refuted.

(** Values of the wrong type are refused. *)
Example C27_example :
  let mk d := core_init toy (Args (VDict d) VNone VNone (VBytes []) VNone VNone false true) in
  (exists c, mk [(KID, VBytes [x01]); (Critical, VList [VInt 99]); (ContentType, VStr (bs "a/b")); (Algorithm, VInt (-7))] = Ok c) /\
  mk [(KID, VStr (bs "1"))] = Err ValueError /\ mk [(Critical, VList [])] = Err ValueError /\
  mk [(ContentType, VInt (-1))] = Err ValueError /\ mk [(Algorithm, VInt 12345)] = Err CoseException.
Proof. cbv zeta. split; [eexists; vm_compute; reflexivity|]. vm_compute. repeat split. Qed.

(** ** C28: unknown parameters *)

Theorem C28_rejected : forall X a c pd ud, core_init X a = Ok c -> a_allow a = false ->
  protected_map (a_phdr a) (a_phdr_encoded a) pd -> unprotected_map (a_uhdr a) ud ->
  all_registered pd /\ all_registered ud.
Proof.
  intros X a c pd ud H HA HP HU.
  apply core_init_inv in H as (pd' & ud' & HP' & HU' & H1 & H2 & _).
  pose proof (protected_map_unique _ _ _ _ HP' HP) as ->. pose proof (unprotected_map_unique _ _ _ HU' HU) as ->.
  rewrite HA in *. split; eapply parse_items_strict; eassumption.
Qed.
Print Assumptions C28_rejected.

Theorem C28_decode_rejected : forall X e b t p u rest pd ud m,
  loads_bytes b = Ok (VTag t (VList (VBytes p :: VDict ud :: rest))) -> loads_bytes p = Ok (VDict pd) ->
  decode X e false (VBytes b) = Ok m -> u = VDict ud -> all_registered pd /\ all_registered ud.
Proof.
  intros X e b t p u rest pd ud m HB HPD H ->. apply decode_inv in H as (b' & obj & E & HL & _ & _ & rest' & HC).
  injection E as <-. rewrite HB in HL. injection HL as -> <-.
  apply core_from_obj_inv in HC as (p' & u' & pl & c0 & E & HI & _ & EC). injection E as <- <- _.
  eapply C28_rejected; [exact HI|reflexivity| |left; reflexivity]. cbn [a_phdr a_phdr_encoded].
  right; left. split; [reflexivity|]. exists p. split; [reflexivity|assumption].
Qed.
Print Assumptions C28_decode_rejected.

Theorem C28_kept : forall X a c pd ud k v, core_init X a = Ok c -> a_allow a = true ->
  protected_map (a_phdr a) (a_phdr_encoded a) pd -> unprotected_map (a_uhdr a) ud ->
  unknown_attr FHdr k ->
  (distinct_keys pd = true -> In (k, v) pd -> dget (phdr c) k = Some v) /\
  (distinct_keys ud = true -> In (k, v) ud -> dget (uhdr c) k = Some v).
Proof.
  intros X a c pd ud k v H HA HP HU HK.
  apply core_init_inv in H as (pd' & ud' & HP' & HU' & H1 & H2 & _).
  pose proof (protected_map_unique _ _ _ _ HP' HP) as ->. pose proof (unprotected_map_unique _ _ _ HU' HU) as ->.
  rewrite HA in *. split; intros HD HIn; eapply parse_items_kept; eassumption.
Qed.
Print Assumptions C28_kept.

Example C28_example :
  let mk allow := core_init toy (Args (VDict [(VInt 4, VBytes [x01]); (VInt 99, VInt 5); (VStr (bs "x"), VNone)])
                                      VNone VNone (VBytes []) VNone VNone false allow) in
  unknown_attr FHdr (VInt 99) /\ mk false = Err CoseException /\
  exists c, mk true = Ok c /\ phdr c = [(KID, VBytes [x01]); (VInt 99, VInt 5); (VStr (bs "x"), VNone)].
Proof.
  cbv zeta. split.
  - intros z Hz c n HI E. injection Hz as <-.
    assert (HT : existsb (fun e => Z.eqb (c_id (fst e)) 99) (registered FHdr) = true).
    { apply existsb_exists. exists (c, n). split; [assumption|]. cbn [fst]. rewrite E. reflexivity. }
    vm_compute in HT. discriminate.
  - split; [vm_compute; reflexivity|]. eexists. split; vm_compute; reflexivity.
Qed.

(** ** C29: get_attr *)

(** With the default [None]: the value from either bucket, CoseException for both. *)
Theorem C29_get_attr_partial : forall c h,
  (forall v, v <> VNone -> dget (phdr c) h = Some v -> dget (uhdr c) h = None -> get_attr c h = Ok v) /\
  (forall v, v <> VNone -> dget (phdr c) h = None -> dget (uhdr c) h = Some v -> get_attr c h = Ok v) /\
  (forall v w, v <> VNone -> w <> VNone -> dget (phdr c) h = Some v -> dget (uhdr c) h = Some w ->
     get_attr c h = Err CoseException) /\
  (dget (phdr c) h = None -> dget (uhdr c) h = None -> get_attr c h = Ok VNone).
Proof.
  intros c h. unfold get_attr, get_attr_default, dget_or.
  split; [intros v HV -> ->; destruct v; try reflexivity; congruence|].
  split; [intros v HV -> ->; reflexivity|].
  split; [intros v w HV HW -> ->; destruct v; try congruence; destruct w; try reflexivity; congruence|].
  intros -> ->. reflexivity.
Qed.
Print Assumptions C29_get_attr_partial.

(** Any other default: whenever the header is not in both buckets, the default stands in
    for the missing value and CoseException is raised. *)
Theorem C29_default_refuted : forall c h d, d <> VNone ->
  (dget (phdr c) h = None -> dget (uhdr c) h = None -> get_attr_default c h d = Err CoseException) /\
  (forall v, v <> VNone -> dget (phdr c) h = Some v -> dget (uhdr c) h = None -> get_attr_default c h d = Err CoseException) /\
  (forall v, v <> VNone -> dget (phdr c) h = None -> dget (uhdr c) h = Some v -> get_attr_default c h d = Err CoseException).
Proof.
  intros c h d HD. unfold get_attr_default, dget_or.
  split; [intros -> ->; destruct d; try reflexivity; congruence|].
  split; [intros v HV -> ->; destruct v; try congruence; destruct d; try reflexivity; congruence|].
  intros v HV -> ->. destruct v; try congruence; destruct d; try reflexivity; congruence.
Qed.
Print Assumptions C29_default_refuted.

Example C29_example :
  let c := ex_msg [(KID, VBytes [x01]); (IV, VBytes [x02])] [(IV, VBytes [x03])] (bs "hi") ex_ec2 in
  get_attr c KID = Ok (VBytes [x01]) /\ get_attr c IV = Err CoseException /\ get_attr c Algorithm = Ok VNone /\
  get_attr_default c Algorithm (VInt 5) = Err CoseException.
Proof. vm_compute. repeat split. Qed.

(** ** C32: no operation with an unauthorised key *)

Theorem C32_signing_partial : forall X X' seed m tag d, ops_listed (s1_core m) ->
  ~ authorised (s1_core m) [KEC2; KOKP; KRSA] (Cls FOps 1) ->
  same_failure (sign1_encode X seed m tag true d) (sign1_encode X' seed m tag true d).
Proof. exact sign1_encode_unauthorised. Qed.
Print Assumptions C32_signing_partial.

Theorem C32_verifying_partial : forall X X' m d, ops_listed (s1_core m) ->
  ~ authorised (s1_core m) [KEC2; KOKP; KRSA] (Cls FOps 2) ->
  same_failure (sign1_verify X m d) (sign1_verify X' m d).
Proof. intros X X' m d. apply verify_signature_unauthorised. Qed.
Print Assumptions C32_verifying_partial.

Theorem C32_signers_partial : forall X X' seed parent s d, ops_listed s ->
  (~ authorised s [KEC2; KOKP; KRSA] (Cls FOps 1) ->
     same_failure (signer_encode X seed parent s d) (signer_encode X' seed parent s d)) /\
  (~ authorised s [KEC2; KOKP; KRSA] (Cls FOps 2) ->
     same_failure (signer_verify X parent s d) (signer_verify X' parent s d)).
Proof.
  intros X X' seed parent s d HL. split.
  - apply signer_encode_unauthorised. assumption.
  - apply verify_signature_unauthorised. assumption.
Qed.
Print Assumptions C32_signers_partial.

Theorem C32_encryption_partial : forall X X' c tag, ops_listed c -> ~ authorised c [KSym] (Cls FOps 3) ->
  same_failure (enc_encrypt X "Encrypt0" c) (enc_encrypt X' "Encrypt0" c) /\
  same_failure (enc0_encode X c tag true) (enc0_encode X' c tag true).
Proof.
  intros X X' c tag HL HN. pose proof (enc_encrypt_unauthorised X X' "Encrypt0" c HL HN) as HE.
  split; [assumption|]. unfold enc0_encode. destruct (phdr_encoded c) as [p|x]; [|apply same_failure_err].
  cbn [bind]. apply same_failure_bind. apply same_failure_bind. assumption.
Qed.
Print Assumptions C32_encryption_partial.

Theorem C32_decryption_partial : forall X X' c, ops_listed c -> ~ authorised c [KSym] (Cls FOps 4) ->
  same_failure (enc0_decrypt X c) (enc0_decrypt X' c).
Proof. intros X X' c. apply enc_decrypt_unauthorised. Qed.
Print Assumptions C32_decryption_partial.

Theorem C32_mac_partial : forall X X' m tag, ops_listed (m0_core m) -> ~ authorised (m0_core m) [KSym] (Cls FOps 9) ->
  same_failure (snd (mac0_compute_tag X m)) (snd (mac0_compute_tag X' m)) /\
  same_failure (snd (mac0_encode X m tag true)) (snd (mac0_encode X' m tag true)).
Proof.
  intros X X' m tag HL HN. destruct (mac_compute_unauthorised X X' "MAC0" (m0_core m) HL HN) as [E [e HE]].
  unfold mac0_encode, mac0_compute_tag. rewrite <- E, HE. cbn [snd]. split; [apply same_failure_err|].
  destruct (phdr_encoded (m0_core m)) as [p|x]; apply same_failure_err.
Qed.
Print Assumptions C32_mac_partial.

Theorem C32_mac_verification_partial : forall X X' m, ops_listed (m0_core m) ->
  ~ authorised (m0_core m) [KSym] (Cls FOps 10) ->
  same_failure (mac0_verify_tag X m) (mac0_verify_tag X' m).
Proof. intros X X' m. apply mac_verify_unauthorised. Qed.
Print Assumptions C32_mac_verification_partial.

(** COSE_Encrypt and COSE_Mac with direct recipients use the message's own key. *)
Theorem C32_direct_recipients_partial : forall X X' n m mm,
  (has_class RDirect (e_rcpts m) = true -> ops_listed (e_core m) ->
   ~ authorised (e_core m) [KSym] (Cls FOps 3) ->
   same_failure (snd (encm_encrypt X n m)) (snd (encm_encrypt X' n m))) /\
  (forall rs, mm_rcpts mm = Some rs -> has_class RDirect rs = true -> ops_listed (mm_core mm) ->
   ~ authorised (mm_core mm) [KSym] (Cls FOps 9) ->
   same_failure (snd (macm_compute_tag X n mm)) (snd (macm_compute_tag X' n mm))) /\
  (ops_listed (mm_core mm) -> ~ authorised (mm_core mm) [KSym] (Cls FOps 10) ->
   same_failure (macm_verify_tag X mm) (macm_verify_tag X' mm)).
Proof.
  intros X X' n m mm. split; [|split].
  - intros HD HL HN. unfold encm_encrypt. destruct (get_attr (e_core m) Algorithm) as [alg|e]; [|apply same_failure_err].
    cbn [bind]. destruct (verify_recipients (e_rcpts m)) as [u|e]; [|apply same_failure_err]. cbn [bind].
    rewrite HD. cbn [snd]. apply enc_encrypt_unauthorised; assumption.
  - intros rs HR HD HL HN. unfold macm_compute_tag. rewrite HR.
    destruct (get_attr (mm_core mm) Algorithm) as [alg|e]; [|apply same_failure_err].
    destruct (verify_recipients rs) as [u|e]; [|apply same_failure_err]. rewrite HD. unfold mac_super_compute.
    destruct (mac_compute_unauthorised X X' "MAC" (mm_core mm) HL HN) as [E [e HE]]. rewrite <- E, HE.
    apply same_failure_err.
  - intros HL HN. apply mac_verify_unauthorised; assumption.
Qed.
Print Assumptions C32_direct_recipients_partial.

(** The hypotheses can be met: a key restricted to verification, a missing key, a key
    bound to another algorithm; and the same message with an unrestricted key signs. *)
Example C32_example :
  let p := [(Algorithm, VClass (Cls FAlg (-7)))] in
  let restricted := Key KEC2 ((VClass KpKeyOps, VList [VerifyOp]) :: k_store ex_ec2) [] in
  let other_alg := Key KEC2 ((VClass KpAlg, VClass (Cls FAlg (-35))) :: k_store ex_ec2) [] in
  let m k := Sign1 (ex_msg p [] (bs "hi") k) (VBytes []) in
  ops_listed (s1_core (m restricted)) /\
  sign1_encode toy 0 (m restricted) true true VNone = Err CoseIllegalKeyOps /\
  sign1_encode toy 0 (m other_alg) true true VNone = Err CoseIllegalAlgorithm /\
  sign1_encode toy 0 (m ex_sym) true true VNone = Err CoseException /\
  sign1_encode toy 0 (Sign1 (with_key (s1_core (m ex_ec2)) None) (VBytes [])) true true VNone = Err CoseException /\
  exists b, sign1_encode toy 0 (m ex_ec2) true true VNone = Ok b.
Proof.
  cbv zeta. split.
  - intros k v HK HV. injection HK as <-. vm_compute in HV. injection HV as <-. eexists. reflexivity.
  - split; [vm_compute; reflexivity|]. split; [vm_compute; reflexivity|]. split; [vm_compute; reflexivity|].
    split; [vm_compute; reflexivity|]. eexists. vm_compute. reflexivity.
Qed.

(** Asymmetric key types are not told apart: an ES256 signature is made with the private
    exponent of an RSA key or the private bytes of an OKP key. *)
Theorem C32_key_type_refuted : forall X seed c k b data,
  ckey c = Some k -> k_cls k = KOKP \/ k_cls k = KRSA ->
  param k KpAlg = None -> param k KpKeyOps = None ->
  get_attr c Algorithm = Ok (VClass (Cls FAlg (-7))) -> prop_get k PD = Ok (VBytes b) -> b <> [] ->
  compute_signature X seed c (Ok data) = x_ecdsa_sign X 1 SHA256 (of_be b) data.
Proof.
  intros X seed c k b data HK HC HA HO HG HD HB. unfold compute_signature. rewrite HG. cbn [bind].
  assert (HV : key_verification c (VClass (Cls FAlg (-7))) SignOp = Ok k).
  { unfold key_verification. rewrite HK. destruct HC as [HC|HC]; rewrite HC; unfold key_verify; rewrite HC;
      unfold param in *; unfold dget_or; rewrite HA, HO; reflexivity. }
  rewrite HV. cbn [bind has_sign alg_kind]. cbn. unfold attr_hex. rewrite HD. cbn [bind].
  destruct b; [congruence|]. reflexivity.
Qed.
Print Assumptions C32_key_type_refuted.

Example C32_refuted_example :
  let k := Key KOKP [(VClass KpKty, KtyOKP); (VClass OKPKpCurve, VClass (Cls FCrv 6)); (VClass OKPKpD, VBytes (repeat x05 32))] [] in
  exists b, sign1_encode toy 0 (Sign1 (ex_msg [(Algorithm, VClass (Cls FAlg (-7)))] [] (bs "hi") k) (VBytes [])) true true VNone = Ok b.
Proof. cbv zeta. eexists. vm_compute. reflexivity. Qed.

(** ** C55: critical headers *)

(** A signed message whose crit header lists the unknown label 99 is encoded, decoded and
    verified without complaint. *)
Theorem C55_critical_refuted : exists b m,
  let c := ex_msg [(Algorithm, VClass (Cls FAlg (-7))); (Critical, VList [VInt 99]); (VInt 99, VInt 1)] [] (bs "hi") ex_ec2 in
  sign1_encode toy 0 (Sign1 c (VBytes [])) true true VNone = Ok b /\
  decode toy None true (VBytes b) = Ok (MSign1 m) /\
  dget (phdr (s1_core m)) Critical = Some (VList [VInt 99]) /\ unknown_attr FHdr (VInt 99) /\
  sign1_verify toy (Sign1 (with_key (s1_core m) (Some ex_ec2)) (s1_sig m)) VNone = Ok true.
Proof.
  eexists. eexists. cbv zeta. split; [vm_compute; reflexivity|]. split; [vm_compute; reflexivity|].
  split; [vm_compute; reflexivity|]. split; [|vm_compute; reflexivity].
  intros z Hz c n HI E. injection Hz as <-.
  assert (HT : existsb (fun e => Z.eqb (c_id (fst e)) 99) (registered FHdr) = true).
  { apply existsb_exists. exists (c, n). split; [assumption|]. cbn [fst]. rewrite E. reflexivity. }
  vm_compute in HT. discriminate.
Qed.
Print Assumptions C55_critical_refuted.

(** ** C71: types of the received fields *)

Theorem C71_field_types_partial : forall X e allow v m, decode X e allow v = Ok m ->
  exists b t p u pl rest, v = VBytes b /\ loads_bytes b = Ok (VTag t (VList (p :: u :: pl :: rest))) /\
    (p = VNone \/ p = VBytes [] \/ exists q d, p = VBytes q /\ loads_bytes q = Ok (VDict d)) /\
    (u = VNone \/ exists d, u = VDict d) /\
    (pl = VNone /\ payload (message_core m) = None \/ exists q, pl = VBytes q /\ payload (message_core m) = Some q).
Proof.
  intros X e allow v m H. apply decode_inv in H as (b & obj & -> & HL & _ & _ & rest & HC).
  apply core_from_obj_inv in HC as (p & u & pl & c0 & -> & HI & HP & _).
  apply core_init_inv in HI as (pd & ud & HPM & HUM & _). cbn [a_phdr a_phdr_encoded a_uhdr] in *.
  exists b, (message_tag m), p, u, pl, rest. split; [reflexivity|]. split; [assumption|]. split; [|split].
  - destruct HPM as [[A _]|[(_ & q & -> & HQ)|(_ & [->| ->] & _)]]; [discriminate|right; right; eauto|auto|auto].
  - destruct HUM as [->|[-> _]]; eauto.
  - destruct pl; try discriminate; cbn [check_payload] in HP; injection HP as HP; rewrite <- HP; eauto.
Qed.
Print Assumptions C71_field_types_partial.

(** False in full: null header fields are accepted, and so is an integer as signature. *)
Theorem C71_field_types_refuted : forall X, exists b m,
  loads_bytes b = Ok (VTag 18 (VList [VNone; VNone; VBytes [x68]; VInt 7])) /\
  decode X None true (VBytes b) = Ok (MSign1 m) /\
  phdr (s1_core m) = [] /\ uhdr (s1_core m) = [] /\ s1_sig m = VInt 7.
Proof.
  intros X. exists [xd2; x84; xf6; xf6; x41; x68; x07]. eexists. split; [vm_compute; reflexivity|].
  split; [vm_compute; reflexivity|]. vm_compute. repeat split.
Qed.
Print Assumptions C71_field_types_refuted.
