(** C104: the order of headers and key parameters does not matter. *)
From Coq Require Import NArith ZArith Bool String Permutation.
From Coq Require Import Init.Byte List.
From Verif Require Import Bytes Value ValueProofs Cbor Registry Crypto Toy Keys Headers Messages Recipients SpecData DataProofs RegistryProofs SpecRegistry SpecKeys SpecAlg SpecRecv SpecOrder
  OrderProofs OrderKeys PropHdr PropMsg.
Import ListNotations.
Local Open Scope result_scope.

(** ** Messages made by the caller *)

(** Maps that name each header once: a message made from reordered maps has the same headers. *)
Theorem C104_headers_partial : forall X p p' u u' pl ad k ts al c, header_maps p p' -> header_maps u u' ->
  core_init X (Args (VDict p) (VDict u) pl ad k VNone ts al) = Ok c ->
  exists c', core_init X (Args (VDict p') (VDict u') pl ad k VNone ts al) = Ok c' /\
    Permutation (phdr c) (phdr c') /\ Permutation (uhdr c) (uhdr c') /\
    (forall a, get_attr c' a = get_attr c a) /\ same_entries (phdr c) (phdr c') /\ same_entries (uhdr c) (uhdr c') /\
    local c' = local c /\ tstr c' = tstr c /\ payload c' = payload c /\ aad c' = aad c /\ ckey c' = ckey c.
Proof.
  intros X p p' u u' pl ad k ts al c HP HU E. unfold core_init in *. cbn [a_uhdr a_phdr a_payload a_aad a_key a_phdr_encoded a_tstr a_allow bind] in *.
  apply bind_ok in E as (p1 & EP1 & E). destruct (parse_perm X al p p' p1 HP EP1) as (p2 & EP2 & PP & NP). rewrite EP2. cbn [bind].
  apply bind_ok in E as (u1 & EU1 & E). destruct (parse_perm X al u u' u1 HU EU1) as (u2 & EU2 & PU & NU). rewrite EU2. cbn [bind] in *.
  apply bind_ok in E as (pl1 & EPl & E). rewrite EPl. cbn [bind].
  apply bind_ok in E as (ad1 & EAd & E). rewrite EAd. cbn [bind]. apply bind_ok in E as (k1 & EK & E). rewrite EK. cbn [bind]. injection E as <-.
  eexists. split; [reflexivity|]. cbn [phdr uhdr local tstr payload aad ckey]. split; [exact PP|]. split; [exact PU|].
  split; [|split; [intros a; apply perm_dget; assumption|split; [intros a; apply perm_dget; assumption|repeat (split; [reflexivity|]); reflexivity]]].
  intros a. unfold get_attr, get_attr_default, dget_or. cbn [phdr uhdr]. rewrite <- (perm_dget _ _ PP NP), <- (perm_dget _ _ PU NU). reflexivity.
Qed.
Print Assumptions C104_headers_partial.

(** A map that names a header twice means different things in different orders. *)
Theorem C104_twice_refuted : exists d d' c c', Permutation d d' /\ python_dict d /\
  core_init toy (Args (VDict d) VNone VNone (VBytes []) VNone VNone false false) = Ok c /\
  core_init toy (Args (VDict d') VNone VNone (VBytes []) VNone VNone false false) = Ok c' /\
  get_attr c Algorithm <> get_attr c' Algorithm.
Proof.
  exists [(VInt 1, VInt 1); (VStr (bs "ALG"), VInt 2)], [(VStr (bs "ALG"), VInt 2); (VInt 1, VInt 1)]. do 2 eexists. split; [apply perm_swap|].
  split; [split; [reflexivity|repeat constructor]|]. split; [vm_compute; reflexivity|]. split; [vm_compute; reflexivity|]. vm_compute. discriminate.
Qed.
Print Assumptions C104_twice_refuted.

(** ** Received messages *)

(** The same array with the unprotected headers in another order, also those of signatures
    and recipients, is decoded to the same message with its headers in another order. *)
Theorem C104_received_partial : forall X e allow b b' t o o' m, reordered_array t o o' ->
  loads_bytes b = Ok (VTag t (VList o)) -> loads_bytes b' = Ok (VTag t (VList o')) ->
  decode X e allow (VBytes b) = Ok m -> all_recipients m o ->
  exists m', decode X e allow (VBytes b') = Ok m' /\ reordered_message m m'.
Proof.
  intros X e allow b b' t o o' m HO HB HB' E HA. unfold decode in *. cbn [loads] in *. rewrite HB in E. rewrite HB'.
  apply bind_ok in E as (m0 & EM & E). assert (m0 = m) as -> by (destruct e as [t'|]; [destruct (N.eqb _ _); congruence|congruence]).
  destruct (order_from_obj X allow t o o' m HO EM HA) as (m' & EM' & HM). rewrite EM'. cbn [bind]. exists m'. split; [|exact HM].
  assert (HT : message_tag m' = message_tag m) by (destruct HM; reflexivity). rewrite HT. destruct e as [t'|]; [|reflexivity]. destruct (N.eqb _ _); [reflexivity|discriminate].
Qed.
Print Assumptions C104_received_partial.

(** A recipient whose headers have two errors is dropped or refused, depending on their order. *)
Definition two_errors (swap : bool) : list cbor :=
  let es := [(CUint 4, CUint 0); (CUint 1, CUint 999)] in
  [CBytes []; CMap [(CUint 1, CUint 1)]; CBytes []; CArr [CArr [CBytes []; CMap (if swap then rev es else es); CBytes []]]].
Theorem C104_dropped_refuted : exists b b' o o' m, reordered_array 96 o o' /\
  loads_bytes b = Ok (VTag 96 (VList o)) /\ loads_bytes b' = Ok (VTag 96 (VList o')) /\
  decode toy None true (VBytes b) = Ok m /\ decode toy None true (VBytes b') = Err CoseException.
Proof.
  exists (enc (CTag 96 (CArr (two_errors false)))), (enc (CTag 96 (CArr (two_errors true)))).
  exists [VBytes []; VDict [(VInt 1, VInt 1)]; VBytes []; VList [VList [VBytes []; VDict [(VInt 4, VInt 0); (VInt 1, VInt 999)]; VBytes []]]].
  exists [VBytes []; VDict [(VInt 1, VInt 1)]; VBytes []; VList [VList [VBytes []; VDict [(VInt 1, VInt 999); (VInt 4, VInt 0)]; VBytes []]]].
  eexists. split; [|split; [vm_compute; reflexivity|split; [vm_compute; reflexivity|split; [vm_compute; reflexivity|vm_compute; reflexivity]]]].
  constructor.
  - split; [apply Permutation_refl|]. split; [split; [reflexivity|repeat constructor]|]. repeat constructor.
  - constructor; [|constructor]. constructor. split; [apply perm_swap|]. split; [split; [reflexivity|repeat constructor]|].
    constructor; [|repeat constructor]. constructor; [|constructor]. intros s s' HS HS'. apply stands_from_id in HS, HS'. vm_compute in HS, HS'.
    injection HS as <-. injection HS' as <-. reflexivity.
Qed.
Print Assumptions C104_dropped_refuted.

(** Everything that is checked, decrypted, signed or tagged is the same for the two. *)
Theorem C104_checks : forall X,
  (forall c c' seed d s, reordered c c' ->
     sign1_verify X (Sign1 c' s) d = sign1_verify X (Sign1 c s) d /\
     compute_signature X seed c' (sign1_structure c' d) = compute_signature X seed c (sign1_structure c d)) /\
  (forall p p' s s' seed d, reordered p p' -> reordered s s' ->
     signer_verify X (Some p') s' d = signer_verify X (Some p) s d /\
     compute_signature X seed s' (signer_structure (Some p') s' d) = compute_signature X seed s (signer_structure (Some p) s d)) /\
  (forall c c', reordered c c' -> enc0_decrypt X c' = enc0_decrypt X c /\ enc_encrypt X "Encrypt0" c' = enc_encrypt X "Encrypt0" c) /\
  (forall c c' t, reordered c c' -> mac0_verify_tag X (Mac0 c' t) = mac0_verify_tag X (Mac0 c t) /\
     snd (mac0_compute_tag X (Mac0 c' t)) = snd (mac0_compute_tag X (Mac0 c t))) /\
  (forall c c' l l' r r', reordered c c' -> Forall2 reordered_rcpt l l' -> reordered_rcpt r r' ->
     snd (encm_decrypt X (EncMsg c' l') r') = snd (encm_decrypt X (EncMsg c l) r)) /\
  (forall c c' t o o' r r' target, reordered c c' -> reordered_rcpt r r' ->
     macm_verify_tag X (MacMsg c' t o') = macm_verify_tag X (MacMsg c t o) /\ compute_cek X r' target true = compute_cek X r target true).
Proof.
  intros X. split; [|split; [|split; [|split; [|split]]]].
  - intros c c' seed d s H. destruct (order_sign X c c' seed d H) as [H1 H2]. split; [|exact H1]. unfold sign1_verify. cbn [s1_core s1_sig]. apply H2.
  - intros p p' s s' seed d HP HS. destruct (order_signer X p p' s s' seed d HP HS) as [H1 H2]. split; [exact H2|exact H1].
  - intros c c' H. split; [apply (order_enc X "Encrypt0" c c' H)|apply (order_enc X "Encrypt0" c c' H)].
  - intros c c' t H. destruct (order_mac X "MAC0" c c' t H) as [H1 H2]. split; [exact H2|]. unfold mac0_compute_tag. cbn [m0_core]. rewrite H1.
    destruct (mac_compute X "MAC0" c); reflexivity.
  - intros. apply order_encm; assumption.
  - intros c c' t o o' r r' target HC HR. split; [|apply order_compute, HR]. apply (order_mac X "MAC" c c' t HC).
Qed.
Print Assumptions C104_checks.

(** ** Keys *)

(** A map that names each parameter once makes the same key in every order. *)
Theorem C104_keys_partial : forall X d d' k, Permutation d d' -> python_dict d ->
  from_dict X (VDict d) = Ok k -> named_once (params_of (k_cls k)) d ->
  exists k', from_dict X (VDict d') = Ok k' /\ same_key k k'.
Proof. intros X d d' k HP HD E HO. eapply from_dict_order; eassumption. Qed.
Print Assumptions C104_keys_partial.

(** ... and a key that reads the same may be used for the same. *)
Theorem C104_key_use : forall k k', same_key k k' ->
  (forall p, prop_get k' p = prop_get k p) /\ (forall t a ops, key_verify k' t a ops = key_verify k t a ops).
Proof. intros k k' H. split; intros; [apply same_prop|apply same_verify]; exact H. Qed.
Print Assumptions C104_key_use.

(** A map that names a parameter twice makes different keys in different orders. *)
Theorem C104_key_twice_refuted : exists d d' k k', Permutation d d' /\ python_dict d /\
  from_dict toy (VDict d) = Ok k /\ from_dict toy (VDict d') = Ok k' /\ prop_get k PAlg <> prop_get k' PAlg.
Proof.
  exists [(VInt 1, VInt 4); (VInt (-1), VBytes (repeat x2a 16)); (VInt 3, VInt 1); (VStr (bs "ALG"), VInt 2)],
         [(VInt 1, VInt 4); (VInt (-1), VBytes (repeat x2a 16)); (VStr (bs "ALG"), VInt 2); (VInt 3, VInt 1)].
  do 2 eexists. split; [do 2 constructor; apply perm_swap|]. split; [split; [reflexivity|repeat constructor]|].
  split; [vm_compute; reflexivity|]. split; [vm_compute; reflexivity|]. vm_compute. discriminate.
Qed.
Print Assumptions C104_key_twice_refuted.

(** ** The hypotheses are met *)

Ltac all_once := repeat (constructor; [repeat (constructor; [intros s s' HS HS'; apply stands_from_id in HS, HS'; vm_compute in HS, HS';
  injection HS as <-; injection HS' as <-; reflexivity|]); constructor|]); constructor.

Definition ex_ec2_map : dict := [(VInt 1, VInt 2); (VInt (-1), VInt 1); (VStr (bs "X"), VBytes [x07]); (VInt (-3), VBytes [x08]); (VInt 2, VBytes (bs "me"))].
Example C104_keys_example : Permutation ex_ec2_map (rev ex_ec2_map) /\ python_dict ex_ec2_map /\
  exists k, from_dict toy (VDict ex_ec2_map) = Ok k /\ named_once (params_of (k_cls k)) ex_ec2_map.
Proof.
  split; [apply Permutation_rev|]. split; [split; [reflexivity|repeat constructor]|]. eexists. split; [vm_compute; reflexivity|]. cbn [k_cls params_of]. all_once.
Qed.

Definition ex_headers : dict := [(VInt 1, VInt (-3)); (VInt 4, VBytes (bs "kid")); (VStr (bs "mine"), VInt 7)].
Lemma ex_header_maps : header_maps ex_headers (rev ex_headers).
Proof. split; [apply Permutation_rev|]. split; [split; [reflexivity|repeat constructor]|]. all_once. Qed.

Definition ex_reordered (h : list (cbor * cbor) -> list (cbor * cbor)) : bytes :=
  let es := h [(CUint 1, CNint 2); (CUint 4, CBytes (bs "kid")); (CText (bs "mine"), CUint 7)] in
  enc (CTag 96 (CArr [CBytes []; CMap es; CBytes (bs "ct"); CArr [CArr [CBytes []; CMap es; CBytes (bs "wrapped")]]])).
Example C104_received_example : exists o o' m, reordered_array 96 o o' /\
  loads_bytes (ex_reordered (fun l => l)) = Ok (VTag 96 (VList o)) /\ loads_bytes (ex_reordered (@rev _)) = Ok (VTag 96 (VList o')) /\
  decode toy None true (VBytes (ex_reordered (fun l => l))) = Ok m /\ all_recipients m o.
Proof.
  exists [VBytes []; VDict ex_headers; VBytes (bs "ct"); VList [VList [VBytes []; VDict ex_headers; VBytes (bs "wrapped")]]].
  exists [VBytes []; VDict (rev ex_headers); VBytes (bs "ct"); VList [VList [VBytes []; VDict (rev ex_headers); VBytes (bs "wrapped")]]].
  eexists. split; [constructor; [exact ex_header_maps|constructor; [constructor; exact ex_header_maps|constructor]]|].
  split; [vm_compute; reflexivity|]. split; [vm_compute; reflexivity|]. split; [vm_compute; reflexivity|]. eexists. split; reflexivity.
Qed.
Example C104_headers_example : header_maps ex_headers (rev ex_headers) /\
  exists c, core_init toy (Args (VDict ex_headers) (VDict ex_headers) (VBytes (bs "hi")) (VBytes []) VNone VNone false true) = Ok c.
Proof. split; [exact ex_header_maps|]. eexists. vm_compute. reflexivity. Qed.
