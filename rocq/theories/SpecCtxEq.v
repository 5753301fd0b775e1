(** Vocabulary of C126: equality of KDF contexts. *)
From Coq Require Import NArith ZArith Bool.
From Coq Require Import Init.Byte List.
From Verif Require Import Bytes Value Registry Crypto Keys Algorithms Headers Messages Recipients Context SpecContext SpecEqual.
Import ListNotations.

(** Context [i] holds values that Python can hold. *)
Definition sound_ctx (w : world) (i : N) : Prop := exists a ui un uo vi vn vo n d po o,
  shows w i a (Party ui un uo) (Party vi vn vo) (PubInfo n d po) o /\
  Forall (fun v => well_formed v = true) [a; ui; un; uo; vi; vn; vo; VDict d; po; o].

(** Values that contain no others, and no booleans and floats, which are equal to some integers. *)
Definition simple (v : pyval) : bool := match v with VNone | VBytes _ | VStr _ | VClass _ | VInt _ => true | _ => false end.

(** Context [i] consists of simple values and of a header map with simple values. *)
Definition simple_ctx (w : world) (i : N) : Prop := exists a ui un uo vi vn vo n d po o,
  shows w i a (Party ui un uo) (Party vi vn vo) (PubInfo n d po) o /\
  Forall (fun v => simple v = true) ([a; ui; un; uo; vi; vn; vo; po; o] ++ map fst d ++ map snd d) /\ well_formed (VDict d) = true.

(** The labels of the header map, in their order. *)
Definition labels (w : world) (i : N) : list pyval := map fst (pu_protected (w_pub w (cx_pub (w_ctx w i)))).
