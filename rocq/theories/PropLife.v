(** The life of message objects: decrypting and encoding again, forwarding (C77-C79). *)
From Coq Require Import NArith ZArith Bool String.
From Coq Require Import Init.Byte List.
From Verif Require Import Bytes Value Cbor SpecData Registry Crypto Toy Keys Algorithms Headers Messages Recipients
  SpecRegistry SpecKeys SpecCrypto SpecAlg SpecHdr SpecTrip SpecMsg SpecRcpt SpecRcptTrip SpecLife LifeProofs PropHdr PropMsg PropRcpt PropRcptTrip.
Import ListNotations.

(** ** C77: decrypting has no lasting effect *)

(** Whatever was decrypted before, the headers, the ciphertext, the external data and the
    recipients are those received. *)
Theorem C77_message_kept : forall X m m', after_decrypts X m m' ->
  e_rcpts m' = e_rcpts m /\ core_kept (e_core m) (e_core m').
Proof.
  intros X m m' H. apply after_decrypts_state in H as (HR & k & HC & _). split; [exact HR|]. rewrite HC. apply core_kept_key.
Qed.
Print Assumptions C77_message_kept.

(** Decrypting gives the same result as on the message just received. *)
Theorem C77_repeatable : forall X m m' r, after_decrypts X m m' -> snd (encm_decrypt X m' r) = snd (encm_decrypt X m r).
Proof. intros. apply decrypt_repeatable. assumption. Qed.
Print Assumptions C77_repeatable.

(** A failure (the second recipient was given a wrong key) between two successes. *)
Example C77_example : exists n2 m2 b c r0 r1,
  encm_encode toy 3 (ex_enc [ex_kw 0 (Some ex_sym) []; ex_kw 1 (Some ex_sym) []]) true true = ((n2, m2), Ok b) /\
  decode toy None true (VBytes b) = Ok (MEnc (EncMsg c [r0; r1])) /\
  (let good := r_with r0 (equip (r_core r0) ex_sym []) in
   let bad := r_with r1 (equip (r_core r1) ex_ec2 []) in
   let m := EncMsg (with_aad c (bs "aad")) [good; bad] in
   let m' := fst (encm_decrypt toy m bad) in
   snd (encm_decrypt toy m bad) = Err AttributeError /\ after_decrypts toy m m' /\ snd (encm_decrypt toy m' good) = Ok (bs "hello")).
Proof.
  do 6 eexists. (split; [vm_compute; reflexivity|]). (split; [vm_compute; reflexivity|]). cbv zeta.
  split; [vm_compute; reflexivity|]. split; [|vm_compute; reflexivity].
  eapply AD_more; [apply AD_none|apply surjective_pairing].
Qed.

(** ** C78: encoding keeps what the user set *)

(** After any number of calls of encode, whatever their arguments and outcomes. *)
Theorem C78_enc : forall X m m', after_encodes X m m' ->
  core_kept (e_core m) (e_core m') /\ Forall2 rcpt_kept (e_rcpts m) (e_rcpts m').
Proof. intros X m m' H. exact (after_encodes_keeps X m m' H). Qed.
Print Assumptions C78_enc.

Theorem C78_mac : forall X m m' rs, after_mac_encodes X m m' -> mm_rcpts m = Some rs ->
  core_kept (mm_core m) (mm_core m') /\ exists rs', mm_rcpts m' = Some rs' /\ Forall2 rcpt_kept rs rs'.
Proof.
  intros X m m' rs H HR. apply after_mac_encodes_keeps in H as [HC H]. split; [exact HC|]. rewrite HR in H.
  destruct (mm_rcpts m') as [rs'|]; [|contradiction]. eauto.
Qed.
Print Assumptions C78_mac.

Theorem C78_mac0 : forall X m tag mac m' x, mac0_encode X m tag mac = (m', x) -> m0_core m' = m0_core m.
Proof. intros. eapply mac0_encode_keeps. eassumption. Qed.
Print Assumptions C78_mac0.

(** Encoding with three kinds of recipients; the key-agreement recipient had no key and the
    recipients had no content key. *)
Example C78_example : let m2 := snd (fst (encm_encode toy 3 ex_mixed true true)) in
  (exists b, snd (encm_encode toy 3 ex_mixed true true) = Ok b) /\ after_encodes toy ex_mixed m2 /\
  map (fun r => match ckey (r_core r), dget (uhdr (r_core r)) EphemeralKey with Some _, Some _ => true | _, _ => false end) (e_rcpts ex_mixed)
    = [false; false; false] /\
  map (fun r => match ckey (r_core r), dget (uhdr (r_core r)) EphemeralKey with Some _, Some _ => true | _, _ => false end) (e_rcpts m2)
    = [false; false; true].
Proof.
  cbv zeta. split; [eexists; vm_compute; reflexivity|]. split; [|split; vm_compute; reflexivity].
  eapply AE_more; [apply AE_none|apply surjective_pairing].
Qed.

(** ** C79: forwarding *)

Theorem C79_enc0_partial : forall X c b encrypt e, headers_ok X c -> no_key_headers (uhdr c) -> tstr c = false ->
  e = None \/ e = Some 16%N -> enc0_encode X c true encrypt = Ok b ->
  exists c', decode X e true (VBytes b) = Ok (MEnc0 c') /\ enc0_encode X c' true false = Ok b.
Proof. intros. eapply enc0_forward; eassumption. Qed.
Print Assumptions C79_enc0_partial.

Theorem C79_sign1_partial : forall X seed seed' m d d' b sign e,
  headers_ok X (s1_core m) -> no_key_headers (uhdr (s1_core m)) -> tstr (s1_core m) = false ->
  sign = true \/ (exists s, s1_sig m = VBytes s /\ s <> []) ->
  e = None \/ e = Some 18%N -> sign1_encode X seed m true sign d = Ok b ->
  exists m' s, decode X e true (VBytes b) = Ok (MSign1 m') /\ s1_sig m' = VBytes s /\
    (s <> [] -> sign1_encode X seed' m' true false d' = Ok b).
Proof. intros. eapply sign1_forward; eassumption. Qed.
Print Assumptions C79_sign1_partial.

(** A received COSE_Sign message is never encoded as it is: its signers have no keys. *)
Theorem C79_sign_refuted : forall X e allow b m seed tag d o, decode X e allow b = Ok (MSign m) -> sm_signers m <> [] ->
  sign_encode X seed m tag d <> Ok o.
Proof. exact sign_not_forwarded. Qed.
Print Assumptions C79_sign_refuted.

(** A received COSE_Mac0 message loses its tag: whatever is encoded cannot be decoded. *)
Theorem C79_mac0_refuted : forall X m b mac e, headers_ok X (m0_core m) -> no_key_headers (uhdr (m0_core m)) ->
  e = None \/ e = Some 17%N -> snd (mac0_encode X m true true) = Ok b ->
  exists m', decode X e true (VBytes b) = Ok (MMac0 m') /\
    forall b', snd (mac0_encode X m' true mac) = Ok b' -> decode X None true (VBytes b') = Err IndexError.
Proof. intros. eapply mac0_not_forwarded; eassumption. Qed.
Print Assumptions C79_mac0_refuted.

Example C79_refuted_example :
  (exists b, snd (mac0_encode toy (Mac0 (mm_core (ex_mac [])) (VBytes [])) true true) = Ok b) /\
  headers_ok toy (mm_core (ex_mac [])) /\ no_key_headers (uhdr (mm_core (ex_mac []))) /\
  exists b m, sign_encode toy 0 (SignMsg (Core [] None [] [] false (Some (bs "hello")) [] None)
      [Core [] None [(Algorithm, alg (-7))] [] false None [] (Some ex_ec2)]) true VNone = Ok b /\
    decode toy None true (VBytes b) = Ok (MSign m) /\ sm_signers m <> [].
Proof.
  split; [eexists; vm_compute; reflexivity|]. split; [apply ex_mac_ok|]. split.
  { intros v. cbn [ex_mac mm_core ex_core uhdr In]. split; intros [E|[]]; discriminate E. }
  do 2 eexists. (split; [vm_compute; reflexivity|]). (split; [vm_compute; reflexivity|]). discriminate.
Qed.

(** An unprotected algorithm sent as text is forwarded as a number. *)
Theorem C79_text_algorithm_refuted : exists c b c' b', headers_ok toy c /\ no_key_headers (uhdr c) /\
  enc0_encode toy c true true = Ok b /\ decode toy None true (VBytes b) = Ok (MEnc0 c') /\
  enc0_encode toy c' true false = Ok b' /\ b' <> b.
Proof.
  exists (Core [] None [(Algorithm, alg 1); (IV, VBytes (repeat x07 12))] [] true (Some (bs "hello")) [] (Some ex_sym)).
  do 3 eexists. split; [|split; [|split; [vm_compute; reflexivity|split; [vm_compute; reflexivity|split; [vm_compute; reflexivity|vm_compute; discriminate]]]]].
  - split; [split; [reflexivity|constructor]|]. exact (proj2 (ex_enc_ok [])).
  - intros v. cbn [uhdr In]. split; intros [E|[E|[]]]; discriminate E.
Qed.
Print Assumptions C79_text_algorithm_refuted.

Example C79_example : exists b c', 
  let c := Core [(Algorithm, alg 1)] None [(IV, VBytes (repeat x07 12))] [] false (Some (bs "hello")) [] (Some ex_sym) in
  headers_ok toy c /\ no_key_headers (uhdr c) /\ enc0_encode toy c true true = Ok b /\
  decode toy None true (VBytes b) = Ok (MEnc0 c') /\ enc0_encode toy c' true false = Ok b.
Proof.
  do 2 eexists. cbv zeta. split; [|split; [|split; [vm_compute; reflexivity|split; [vm_compute; reflexivity|vm_compute; reflexivity]]]].
  - split; (split; [reflexivity|]); (apply Forall_cons; [|apply Forall_nil]).
    + apply HO_alg. exists (Cls FAlg 1). eexists. split; [reflexivity|in_list].
    + apply (HO_bytes toy 5). in_list.
  - intros v. cbn [uhdr In]. split; intros [E|[]]; discriminate E.
Qed.
