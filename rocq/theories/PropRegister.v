(** C97: attributes registered by a program.

    [rsteps imported ops] are the registries after importing the library and the registrations
    [ops]; [find s f allow q] is [from_id(q, allow)] of the base class [f] on the registries
    [s], giving the class found or [None] where the argument is returned as it is.
    [by_id], [by_name] and [replaces] are in SpecRegister.v. *)
From Coq Require Import NArith ZArith Bool String.
From Coq Require Import Init.Byte List.
From Verif Require Import Bytes Value Registry SpecRegistry Register SpecRegister RegisterProofs.
Import ListNotations.

(** A registered class is found by its identifier, by its name in any letter case and by any
    class with its identifier, after any history and until another class is registered with
    the same base class under the same identifier or name. *)
Theorem C97_found_partial : forall before f a after allow q,
  Forall (fun o => ~ replaces f (ident a) (name_of a) o) after -> by_id (ident a) q \/ by_name (name_of a) q ->
  find (rsteps imported (before ++ Register f a :: after)) f allow q = Ok (Some a).
Proof. exact registered_found. Qed.
Print Assumptions C97_found_partial.

(** Registering a class changes no lookup of anything else, and none in another base class. *)
Theorem C97_others_partial : forall before f a g allow q, g <> f \/ (~ by_id (ident a) q /\ ~ by_name (name_of a) q) ->
  find (rsteps imported (before ++ [Register f a])) g allow q = find (rsteps imported before) g allow q.
Proof. intros before f a g allow q H. unfold rsteps. rewrite fold_left_app. apply others_kept. exact H. Qed.
Print Assumptions C97_others_partial.

(** A program that registers nothing sees what C24 and C25 describe. *)
Theorem C97_import_partial : forall f allow v, (forall l, v <> VList l) -> from_id f allow v =
  match find imported f allow (Val v) with
  | Ok (Some (Lib c)) => Ok (VClass c)
  | Ok (Some (User _ _ _)) => Err AssertionError
  | Ok None => Ok v
  | Err e => Err e
  end.
Proof. exact imported_find. Qed.
Print Assumptions C97_import_partial.

(** Refuted: a new common key parameter (registered with KeyParam, like KID and ALG) is found
    there, but no kind of key knows it. *)
Theorem C97_common_parameter_refuted : forall a f, In f [FEC2; FOKP; FRSA; FSym] ->
  (forall c n, In (c, n) (registered f) -> c_id c <> ident a /\ upper n <> upper (name_of a)) ->
  let s := rsteps imported [Register FKP a] in
  find s FKP false (Class a) = Ok (Some a) /\
  forall q, by_id (ident a) q \/ by_name (name_of a) q -> find s f false q = Err CoseException.
Proof. exact common_unknown. Qed.
Print Assumptions C97_common_parameter_refuted.

(** Refuted: after a class has been replaced by one with the same identifier and another name,
    its name still finds it, although its identifier, and the class itself, find the other. *)
Theorem C97_replaced_refuted : forall f c n a, In (c, n) (registered f) -> ident a = c_id c -> upper (name_of a) <> n ->
  let s := rsteps imported [Register f a] in
  find s f false (Val (VInt (c_id c))) = Ok (Some a) /\ find s f false (Val (VStr n)) = Ok (Some (Lib c)) /\
  find s f false (Class (Lib c)) = Ok (Some a).
Proof. exact old_name_stays. Qed.
Print Assumptions C97_replaced_refuted.

(** A header parameter 259 "Receipt" of a program, and an algorithm registered later. *)
Example C97_example :
  let a := User 1 259 (bs "Receipt") in
  let s := rsteps imported [Register FHdr a; Register FAlg (User 2 259 (bs "receipt"))] in
  find s FHdr false (Val (VInt 259)) = Ok (Some a) /\ find s FHdr false (Val (VStr (bs "RECEIPT"))) = Ok (Some a) /\
  find s FHdr false (Val (VStr (bs "kid"))) = Ok (Some (Lib (Cls FHdr 4))) /\
  find s FCrv false (Val (VInt 259)) = Err CoseException /\ ~ replaces FHdr (ident a) (name_of a) (Register FAlg (User 2 259 (bs "receipt"))).
Proof.
  cbv zeta. split; [vm_compute; reflexivity|]. split; [vm_compute; reflexivity|]. split; [vm_compute; reflexivity|]. split; [vm_compute; reflexivity|].
  intros [H _]. discriminate.
Qed.

Example C97_common_example :
  let a := User 1 77 (bs "MY_PARAM") in
  (forall c n, In (c, n) (registered FSym) -> c_id c <> ident a /\ upper n <> upper (name_of a)) /\
  find (rsteps imported [Register FKP a]) FSym false (Val (VInt 77)) = Err CoseException /\
  find (rsteps imported [Register FSym a]) FSym false (Val (VInt 77)) = Ok (Some a).
Proof.
  cbv zeta. split; [|split; vm_compute; reflexivity]. intros c n H. vm_compute in H.
  repeat (destruct H as [H|H]; [injection H as <- <-; split; vm_compute; discriminate|]). destruct H.
Qed.
