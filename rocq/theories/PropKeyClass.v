(** C115: each way of making a key gives a key of the right class. *)
From Coq Require Import NArith ZArith Bool String.
From Coq Require Import Init.Byte List.
From Verif Require Import Bytes Value ValueProofs Cbor Registry Crypto Toy Keys Pem SpecKeys SpecHdr SpecRegistry SpecTrip SpecInit KeyTrip KeyTrip2 KeyTrip3 PropTrip
  KeyClass SpecKeyClass KeyClassProofs.
Import ListNotations.

(** [SymmetricKey.from_dict], [OKPKey.from_dict], [EC2Key.from_dict] and [RSAKey.from_dict] return only keys of their
    class, with its key type. *)
Theorem C115_from_dict : forall X c m k, call_from_dict X (Some c) m = Ok k -> key_is c k.
Proof. intros X c m k H. apply (class_call X c m k H). Qed.
Print Assumptions C115_from_dict.

(** A map that says under its last label for the key type that it is a key of another type is refused, and so is one
    with any value for the key type that names no key type. A map that does not say its key type is accepted. *)
Theorem C115_from_dict_type_partial : forall X c d k, call_from_dict X (Some c) (VDict d) = Ok k ->
  (forall v, last_value kty_label d v -> names_type c v) /\
  (forall a v, In (a, v) d -> kty_label a -> exists w, attribute_value FKty v w).
Proof. intros X c d k H. exact (proj2 (class_call X c _ k H) d eq_refl). Qed.
Print Assumptions C115_from_dict_type_partial.

(** What it means: the type of another class is refused. *)
Theorem C115_other_type_refused : forall X c c' d v, c <> c' -> last_value kty_label d v -> names_type c' v ->
  exists e, call_from_dict X (Some c) (VDict d) = Err e.
Proof.
  intros X c c' d v HN HL HT. destruct (call_from_dict X (Some c) (VDict d)) as [k|e] eqn:E; [exfalso|eauto].
  pose proof (proj1 (C115_from_dict_type_partial X c d k E) v HL) as HT'. unfold names_type in *.
  unfold type_of in *. inversion HT as [v1 w1 n1 I1 S1 E1 Q1|]. inversion HT' as [v2 w2 n2 I2 S2 E2 Q2|]. subst.
  pose proof (RegistryProofs.from_id_spells FKty false _ _ _ I1 S1) as G1. rewrite (RegistryProofs.from_id_spells FKty false _ _ _ I2 S2) in G1.
  destruct c, c'; try discriminate G1; apply HN; reflexivity.
Qed.
Print Assumptions C115_other_type_refused.

(** [CoseKey.from_dict] returns a key of the class that the map names, under the first of the labels in order of
    precedence and under the last label in the map. *)
Theorem C115_dispatch : forall X d k, call_from_dict X None (VDict d) = Ok k ->
  key_is (k_cls k) k /\
  (exists v w, first_type d v /\ type_of (k_cls k) = VClass w /\
     (keyeq v (VInt (c_id w)) = true \/ v = VStr (cls_fullname w) \/ v = VClass w)) /\
  (forall v, last_value kty_label d v -> names_type (k_cls k) v) /\
  call_from_dict X (Some (k_cls k)) (VDict d) = Ok k.
Proof.
  intros X d k H. destruct (any_call X d k H) as (v & HV & HL & HC). destruct (lookup_names _ _ HL) as (w & HW & HN).
  split; [exact (C115_from_dict _ _ _ _ HC)|]. split; [exists v, w; auto|].
  split; [exact (proj1 (C115_from_dict_type_partial _ _ _ _ HC))|exact HC].
Qed.
Print Assumptions C115_dispatch.

(** Key generation gives keys of the class it is called on. *)
Theorem C115_generate : forall X c seed w opt k, call_generate X (Some c) seed w opt = Ok k -> key_is c k.
Proof. exact generate_is. Qed.
Print Assumptions C115_generate.

(** Decoding and PEM import give a key whose class and key type agree, and the class of an imported key is that of the
    kind of key in the PEM text. Missing: the class the method is called on. *)
Theorem C115_decode_partial : forall X cls b k, call_decode X cls b = Ok k ->
  key_is (k_cls k) k /\ exists m, loads b = Ok m /\ call_from_dict X None m = Ok k.
Proof.
  intros X cls b k H. unfold call_decode in H. apply bind_ok in H as (m & HM & H). split; [|eauto].
  exact (from_dict_is X m k H).
Qed.
Print Assumptions C115_decode_partial.

Theorem C115_pem_partial : forall X cls load load' pem password opt k,
  (call_pem_private X cls load pem password opt = Ok k -> exists e, load pem password = Ok e /\ key_is (class_of e) k) /\
  (call_pem_public X cls load' pem opt = Ok k -> exists e, load' pem = Ok e /\ key_is (class_of e) k).
Proof.
  intros X cls load load' pem password opt k. unfold call_pem_private, call_pem_public, from_pem_private_key, from_pem_public_key.
  split; intros H; apply bind_ok in H as (e & HE & H); exists e; (split; [exact HE|]); eapply import_is; exact H.
Qed.
Print Assumptions C115_pem_partial.

(** [EC2Key.decode(b)], and [decode] on every other key class, returns keys of every class: for every key that can be sent,
    whichever class [decode] is called on, the key that is returned is of the class of the key that was sent. *)
Theorem C115_decode_refuted : forall X c k b, portable X k -> key_encode k = Ok b ->
  exists k', call_decode X (Some c) (VBytes b) = Ok k' /\ k_cls k' = k_cls k.
Proof.
  intros X c k b HP HE. destruct (C37_portable_partial X k HP) as [E|(b' & k' & HE' & HD & HS)]; [congruence|].
  rewrite HE in HE'. injection HE' as <-. exists k'. split; [exact HD|]. exact (proj1 HS).
Qed.
Print Assumptions C115_decode_refuted.

(** So on each class there are bytes that it decodes to a key of another class. *)
Theorem C115_decode_other_refuted : forall X c, exists b k, call_decode X (Some c) (VBytes b) = Ok k /\ k_cls k <> c.
Proof.
  intros X c.
  pose (sym := match dumps cls_fullname HNone (VDict [(VInt 1, VInt 4); (VInt (-1), VBytes (repeat x07 16))]) with Ok b => b | Err _ => [] end).
  pose (okp := match dumps cls_fullname HNone (VDict [(VInt 1, VInt 1); (VInt (-1), VInt 6); (VInt (-2), VBytes (repeat x07 32))]) with Ok b => b | Err _ => [] end).
  exists (match c with KSym => okp | _ => sym end). destruct c; eexists; (split; [vm_compute; reflexivity|discriminate]).
Qed.
Print Assumptions C115_decode_other_refuted.

(** Likewise for the PEM methods, which every key class inherits. *)
Theorem C115_pem_other_refuted : forall X c pem password, exists load k,
  call_pem_private X (Some c) load pem password VNone = Ok k /\ k_cls k <> c.
Proof.
  intros X c pem password.
  exists (fun _ _ => Ok (match c with KOKP => ExtRSA (RsaPub 15 3) None | _ => ExtOKP 6 [x07] (Some [x08]) end)).
  destruct c; eexists; (split; [vm_compute; reflexivity|discriminate]).
Qed.
Print Assumptions C115_pem_other_refuted.

(** And a map with two key types is accepted by the class that the last one names, although the identifier 1 takes
    precedence elsewhere and says something else. *)
Theorem C115_two_types_refuted : forall X c kb, length kb = 16%nat -> exists k,
  call_from_dict X (Some KSym) (VDict [(VInt 1, VInt (type_number c)); (VStr (bs "KTY"), VInt 4); (VInt (-1), VBytes kb)]) = Ok k /\
  key_is KSym k.
Proof.
  intros X c kb HL. assert (HE : exists k,
    call_from_dict X (Some KSym) (VDict [(VInt 1, VInt (type_number c)); (VStr (bs "KTY"), VInt 4); (VInt (-1), VBytes kb)]) = Ok k).
  { do 16 (destruct kb as [|? kb]; [discriminate HL|]). destruct kb; [|discriminate HL]. destruct c; eexists; vm_compute; reflexivity. }
  destruct HE as [k HE]. exists k. split; [exact HE|exact (C115_from_dict _ _ _ _ HE)].
Qed.
Print Assumptions C115_two_types_refuted.

(** ** Instances *)
Definition ec2_map : dict :=
  [(VInt (-1), VStr (bs "P_256")); (VStr (bs "Kty"), VStr (bs "ec2")); (VInt (-2), VBytes (repeat x07 32)); (VInt (-3), VBytes (repeat x08 32))].

Example ec2_map_type : last_value kty_label ec2_map (VStr (bs "ec2")) /\ names_type KEC2 (VStr (bs "ec2")) /\ first_type [(VInt 1, VInt 2)] (VInt 2).
Proof.
  split; [|split].
  - exists [(VInt (-1), VStr (bs "P_256"))], (VStr (bs "Kty")), [(VInt (-2), VBytes (repeat x07 32)); (VInt (-3), VBytes (repeat x08 32))].
    split; [reflexivity|]. split; [vm_compute; reflexivity|]. intros a v [E|[E|[]]]; injection E as <- _; vm_compute; discriminate.
  - apply (AT_one FKty (VStr (bs "ec2")) (Cls FKty 2) (bs "EC2")); [vm_compute; tauto|vm_compute; reflexivity].
  - right. left. vm_compute. auto.
Qed.

(** [EC2Key.from_dict] takes it; the other classes do not. *)
Example ec2_map_calls : (exists k, call_from_dict toy (Some KEC2) (VDict ec2_map) = Ok k /\ key_is KEC2 k) /\
  Forall (fun c => exists e, call_from_dict toy (Some c) (VDict ec2_map) = Err e) [KSym; KOKP; KRSA].
Proof.
  split.
  - eexists. split; [vm_compute; reflexivity|vm_compute; split; reflexivity].
  - destruct ec2_map_type as (HL & HT & _).
    repeat constructor; (eapply C115_other_type_refused; [|exact HL|exact HT]); discriminate.
Qed.

Example dispatch_example : exists k, call_from_dict toy None (VDict ((VInt 1, VInt 2) :: ec2_map)) = Ok k /\ k_cls k = KEC2.
Proof. eexists. split; [vm_compute; reflexivity|reflexivity]. Qed.

Example generate_example : exists k, call_generate toy (Some KEC2) 5 (WCurve (VStr (bs "P_256"))) (VDict [(VStr (bs "kty"), VInt 2)]) = Ok k /\ key_is KEC2 k.
Proof. eexists. split; [vm_compute; reflexivity|vm_compute; split; reflexivity]. Qed.
