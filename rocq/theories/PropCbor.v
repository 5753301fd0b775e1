(** C01, C02: properties of the serialisation used for every COSE structure.

    [dumps fullname hook v] is [cbor2.dumps(v, default=...)]; [decode_item] reads
    one data item from the front of a byte string and returns what follows;
    [data_value false v] (SpecData.v) says [v] is plain data. *)
From Coq Require Import NArith ZArith Bool String.
From Coq Require Import Init.Byte List.
From Verif Require Import Bytes Value Cbor SpecData DataProofs.
Import ListNotations.

(** C01. What is serialised is read back as the same value, and exactly the bytes
    that follow it are left over. *)
Theorem C01_cbor_round_trip : forall fullname h v b rest,
  data_value false v = true -> dumps fullname h v = Ok b ->
  exists c, decode_item (b ++ rest) = Ok (c, rest) /\ lift false c = Ok v.
Proof. exact loads_dumps. Qed.
Print Assumptions C01_cbor_round_trip.

(** C01, on whole inputs: [cbor2.loads]. *)
Theorem C01_loads_round_trip : forall fullname h v b rest,
  data_value false v = true -> dumps fullname h v = Ok b ->
  loads_bytes (b ++ rest) = Ok v.
Proof. exact loads_bytes_dumps. Qed.
Print Assumptions C01_loads_round_trip.

(** C02. Two serialisations followed by anything agree only if the values agree;
    with [rv] or [rw] empty: no serialisation is a prefix of another one. *)
Theorem C02_prefix_free : forall fullname h h' v w bv bw rv rw,
  data_value false v = true -> data_value false w = true ->
  dumps fullname h v = Ok bv -> dumps fullname h' w = Ok bw ->
  bv ++ rv = bw ++ rw -> v = w /\ rv = rw.
Proof. exact dumps_prefix_free. Qed.
Print Assumptions C02_prefix_free.

(** A nested value with a map, a bignum, a float, a tag and text is plain data and
    can be serialised. *)
Example C01_example :
  let v := VDict [(VInt 1, VList [VBytes (bs "abc"); VNone; VFloat 4609434218613702656]);
                  (VStr (bs "k"), VTag 4711 (VInt (2 ^ 80)));
                  (VTuple [VInt (-1); VBool true], VDict [])] in
  data_value false v = true /\
  exists b, dumps (fun _ => []) HNone v = Ok b /\ length b = 39%nat.
Proof.
  cbv zeta. split; [vm_compute; reflexivity|].
  eexists. split; [vm_compute; reflexivity|]. vm_compute. reflexivity.
Qed.

Example C02_example :
  let v := VInt 23 in let w := VInt 24 in
  data_value false v = true /\ data_value false w = true /\
  dumps (fun _ => []) HNone v = Ok [x17] /\ dumps (fun _ => []) HNone w = Ok [x18; x18].
Proof. vm_compute. repeat split. Qed.
