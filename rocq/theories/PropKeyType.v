(** C100: keys that name two key types. *)
From Coq Require Import NArith ZArith Bool String.
From Coq Require Import Init.Byte List.
From Verif Require Import Bytes Value Registry Crypto Toy Keys SpecRegistry KeyTypeProofs.
Import ListNotations.
Local Open Scope list_scope.

(** A dictionary that makes a key is refused with CoseIllegalKeyType when it ends with another
    key type, in any spelling of the name [kty] that is a string. *)
Theorem C100_other_type_partial : forall X d k u v t n, from_dict X (VDict d) = Ok k ->
  upper u = bs "KTY" -> In (t, n) (registered FKty) -> spells t n v -> VClass t <> kty_of (k_cls k) ->
  from_dict X (VDict (d ++ [(VStr u, v)])) = Err CoseIllegalKeyType.
Proof. intros X d k u v t n H HU HT HV HN. eapply from_dict_two; eassumption. Qed.
Print Assumptions C100_other_type_partial.

(** The same for the optional parameters of the four constructors, with the name [kty] spelled in
    any way. *)
Theorem C100_constructor_type_partial : forall X d a v t n allow,
  spells KpKty (bs "KTY") a -> In (t, n) (registered FKty) -> spells t n v ->
  let more := VDict (d ++ [(a, v)]) in
  (forall kv k, sym_init kv (VDict d) allow = Ok k -> VClass t <> KtySymmetric -> sym_init kv more allow = Err CoseIllegalKeyType) /\
  (forall crv x dd k, okp_init crv x dd (VDict d) allow = Ok k -> VClass t <> KtyOKP -> okp_init crv x dd more allow = Err CoseIllegalKeyType) /\
  (forall crv x y dd k, ec2_init X crv x y dd (VDict d) allow = Ok k -> VClass t <> KtyEC2 ->
     ec2_init X crv x y dd more allow = Err CoseIllegalKeyType) /\
  (forall r k, rsa_init r (VDict d) allow = Ok k -> VClass t <> KtyRSA -> rsa_init r more allow = Err CoseIllegalKeyType).
Proof.
  intros X d a v t n allow HA HT HV. cbv zeta. split; [|split; [|split]].
  - intros. eapply sym_two; eassumption.
  - intros. eapply okp_two; eassumption.
  - intros. eapply ec2_two; eassumption.
  - intros. eapply rsa_two; eassumption.
Qed.
Print Assumptions C100_constructor_type_partial.

(** {1: 4, -1: k} is a symmetric key; {1: 4, -1: k, "kty": "EC2"} is refused. *)
Example C100_other_type_example :
  let d := [(VInt 1, VInt 4); (VInt (-1), VBytes (repeat x07 16))] in
  (exists k, from_dict toy (VDict d) = Ok k /\ KtyEC2 <> kty_of (k_cls k)) /\
  upper (bs "kty") = bs "KTY" /\ In (Cls FKty 2, bs "EC2") (registered FKty) /\ spells (Cls FKty 2) (bs "EC2") (VStr (bs "EC2")) /\
  from_dict toy (VDict (d ++ [(VStr (bs "kty"), VStr (bs "EC2"))])) = Err CoseIllegalKeyType.
Proof.
  cbv zeta. split; [eexists; split; [vm_compute; reflexivity|discriminate]|]. split; [reflexivity|].
  split; [cbn; repeat (first [left; reflexivity|right])|]. split; [reflexivity|vm_compute; reflexivity].
Qed.
