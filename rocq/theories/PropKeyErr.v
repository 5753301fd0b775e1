(** C100: the exceptions of CoseKey.decode and CoseKey.from_dict.

    Vocabulary: SpecKeyErr.v, SpecErr.v ([curve_failure]). *)
From Coq Require Import NArith ZArith Bool String.
From Coq Require Import Init.Byte List.
From Verif Require Import Bytes Value Cbor Registry Crypto Toy Keys ValueProofs SpecErr SpecKeyErr KeyErrProofs PropKeys.
Import ListNotations.

(** Whatever the input, a key is returned or one of the listed exceptions is raised; anything else
    is raised by the elliptic curve library. *)
Theorem C100_exceptions_partial : forall X v x, key_decode X v = Err x \/ from_dict X v = Err x ->
  In x cose_refusals \/ In x other_refusals \/ curve_failure X x.
Proof. intros X v x [H|H]; [exact (key_decode_W X v x H)|exact (from_dict_W X v x H)]. Qed.
Print Assumptions C100_exceptions_partial.

(** Every exception that is not one of pycose's is raised for some bytes. *)
Theorem C100_other_exceptions_refuted : forall x, In x other_refusals -> exists b, key_decode toy (VBytes b) = Err x.
Proof.
  intros x H. unfold other_refusals in H. cbn [In] in H. destruct H as [<-|[<-|[<-|[<-|[<-|[<-|[<-|[<-|[]]]]]]]]].
  - exists []. vm_compute. reflexivity.
  - exists (map byte_of_N [0x1c])%N. vm_compute. reflexivity.
  - (* the number 0 *) exists (map byte_of_N [0x00])%N. vm_compute. reflexivity.
  - (* {1: 4, -1: 5}: a key value that is not a byte string *) exists (map byte_of_N [0xa2; 0x01; 0x04; 0x20; 0x05])%N. vm_compute. reflexivity.
  - (* {1: 9}: no such type *) exists (map byte_of_N [0xa1; 0x01; 0x09])%N. vm_compute. reflexivity.
  - (* [1] *) exists (map byte_of_N [0x81; 0x01])%N. vm_compute. reflexivity.
  - (* {1: 2, -1: 1, -2: h'01', -3: h'02', -4: h'03'}: a private key of another point *)
    exists (map byte_of_N [0xa5; 0x01; 0x02; 0x20; 0x01; 0x21; 0x41; 0x01; 0x22; 0x41; 0x02; 0x23; 0x41; 0x03])%N. vm_compute. reflexivity.
  - (* {1: 2, -1: [1], -2: h'01'}: a list of curves *) exists (map byte_of_N [0xa3; 0x01; 0x02; 0x20; 0x81; 0x01; 0x21; 0x41; 0x01])%N. vm_compute. reflexivity.
Qed.
Print Assumptions C100_other_exceptions_refuted.

(** A map that names no key type at all is refused with pycose's exception for this. *)
Theorem C100_no_type_partial : forall X d, no_kty d -> from_dict X (VDict d) = Err CoseIllegalKeyType.
Proof.
  intros X d H.
  assert (HN : forall l, In l kty_labels -> dget d l = None).
  { intros l HL. destruct (dget d l) as [v|] eqn:E; [|reflexivity]. apply dget_In in E as (k & HI & HK). rewrite (H k v l HI HL) in HK. discriminate. }
  unfold from_dict. cbn [map_get bind].
  rewrite (HN (VClass KpKty)), (HN (VInt 1)), (HN (VStr (bs "KTY"))) by (unfold kty_labels; cbn [In]; auto). reflexivity.
Qed.
Print Assumptions C100_no_type_partial.

(** A map whose key type is unknown is refused, too, but with KeyError. *)
Theorem C100_unknown_type_refuted : forall X d, bad_kty d -> from_dict X (VDict d) = Err KeyError.
Proof.
  intros X d (l & v & HL & HG & HO & HH & HT).
  assert (HD : dispatch_kty X v (VDict d) = Err KeyError).
  { unfold dispatch_kty. rewrite HH. cbn [negb].
    replace (key_type_lookup key_types v) with (@None kclass); [reflexivity|]. unfold key_types. cbn [flat_map app c_id key_type_lookup].
    destruct (HT 1%Z) as (-> & -> & ->); [cbn; auto|]. destruct (HT 2%Z) as (-> & -> & ->); [cbn; auto|].
    destruct (HT 3%Z) as (-> & -> & ->); [cbn; auto|]. destruct (HT 4%Z) as (-> & -> & ->); [cbn; auto|]. reflexivity. }
  assert (HN : forall l', In l' kty_labels -> l' <> l -> dget d l' = None).
  { intros l' HI HX. destruct (HO l' HI) as [->|HE]; [contradiction|exact HE]. }
  unfold from_dict. cbn [map_get bind]. unfold kty_labels in *. cbn [In] in *.
  destruct HL as [<-|[<-|[<-|[]]]].
  - rewrite HG. exact HD.
  - rewrite (HN (VClass KpKty)) by (auto || discriminate). rewrite HG. exact HD.
  - rewrite (HN (VClass KpKty)) by (auto || discriminate). rewrite (HN (VInt 1)) by (auto || discriminate). rewrite HG. exact HD.
Qed.
Print Assumptions C100_unknown_type_refuted.

(** Only maps are keys: arrays and everything else are refused. *)
Theorem C100_only_maps_partial : forall X b k, key_decode X (VBytes b) = Ok k -> exists d, loads_bytes b = Ok (VDict d) /\ ~ no_kty d.
Proof.
  intros X b k H. unfold key_decode in H. apply bind_ok in H as (v & HV & H). cbn [loads] in HV.
  destruct v; try discriminate H.
  - exists d. split; [exact HV|]. intros HN. rewrite (C100_no_type_partial X _ HN) in H. discriminate.
  - exfalso. unfold loads_bytes in HV. apply bind_ok in HV as ([c r] & _ & HV). exact (lift_no_key _ _ _ HV _ _ _ eq_refl).
Qed.
Print Assumptions C100_only_maps_partial.

(** Non-vacuity. *)
Example C100_example :
  (forall x, In x cose_refusals -> exists b, key_decode toy (VBytes b) = Err x) /\
  no_kty [(VInt 3, VInt (-7)); (VStr (bs "K"), VBytes [x01])] /\ bad_kty [(VInt 1, VInt 9); (VInt (-1), VBytes [x01])] /\
  exists b k, key_decode toy (VBytes b) = Ok k.
Proof.
  split; [|split; [|split]].
  - intros x H. unfold cose_refusals in H. cbn [In] in H. destruct H as [<-|[<-|[<-|[<-|[]]]]].
    + (* {1: 4, -1: h'01', 3: 99}: no such algorithm *) exists (map byte_of_N [0xa3; 0x01; 0x04; 0x20; 0x41; 0x01; 0x03; 0x18; 0x63])%N. vm_compute. reflexivity.
    + (* {} *) exists (map byte_of_N [0xa0])%N. vm_compute. reflexivity.
    + (* {1: 4} *) exists (map byte_of_N [0xa1; 0x01; 0x04])%N. vm_compute. reflexivity.
    + (* {1: 2, -1: 6, -2: h'01'} *) exists (map byte_of_N [0xa3; 0x01; 0x02; 0x20; 0x06; 0x21; 0x41; 0x01])%N. vm_compute. reflexivity.
  - intros k v l HK HL. unfold kty_labels in HL. cbn [In] in HK, HL.
    destruct HK as [E|[E|[]]]; injection E as <- <-; destruct HL as [<-|[<-|[<-|[]]]]; reflexivity.
  - exists (VInt 1), (VInt 9). split; [unfold kty_labels; cbn; auto|]. split; [reflexivity|]. split.
    + intros l' HL. unfold kty_labels in HL. cbn [In] in HL. destruct HL as [<-|[<-|[<-|[]]]]; auto.
    + split; [reflexivity|]. intros t HT. cbn [In] in HT. destruct HT as [<-|[<-|[<-|[<-|[]]]]]; repeat split; reflexivity.
  - exists (map byte_of_N ([0xa2; 0x01; 0x04; 0x20; 0x50] ++ repeat 7 16))%N. eexists. vm_compute. reflexivity.
Qed.
