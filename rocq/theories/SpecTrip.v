(** Vocabulary of the round-trip properties (C10, C12-C19, C28, C30, C37, C56, C62). *)
From Coq Require Import NArith ZArith Bool String.
From Coq Require Import Init.Byte List.
From Verif Require Import Bytes Value Cbor SpecData Registry Crypto Keys Algorithms Headers Messages Recipients
  SpecRegistry SpecKeys SpecHdr.
Import ListNotations.

(** ** Keys that can be sent *)

(** A plain data item: no attribute classes, no keys. *)
Definition plain (v : pyval) : Prop := data_value false v = true.

(** A class that is registered in family [f]. *)
Definition known_class (f : fam) (v : pyval) : Prop := exists c n, v = VClass c /\ In (c, n) (registered f).

(** The byte-string parameters of each key type. *)
Definition byte_params (c : kclass) : list cls :=
  match c with
  | KSym => [SymKpK]
  | KOKP => [OKPKpX; OKPKpD]
  | KEC2 => [EC2KpX; EC2KpY; EC2KpD]
  | KRSA => [RSAKpN; RSAKpE; RSAKpD; RSAKpP; RSAKpQ; RSAKpDP; RSAKpDQ; RSAKpQInv]
  end.
Definition curve_param (c : kclass) : list cls :=
  match c with KOKP => [OKPKpCurve] | KEC2 => [EC2KpCurve] | _ => [] end.

(** A parameter with a value of the right type. *)
Inductive param_ok (c : kclass) : pyval -> pyval -> Prop :=
| PO_kty : param_ok c (VClass KpKty) (type_of c)
| PO_alg v : known_class FAlg v -> param_ok c (VClass KpAlg) v
| PO_ops l : l <> [] -> Forall (known_class FOps) l -> param_ok c (VClass KpKeyOps) (VList l)
| PO_kid v : plain v -> param_ok c (VClass KpKid) v
| PO_base_iv v : plain v -> param_ok c (VClass KpBaseIV) v
| PO_curve p cv n : In p (curve_param c) -> In (cv, n) (registered FCrv) ->
    In (c_id cv) (curve_ids c) -> param_ok c (VClass p) (VClass cv)
| PO_bytes p b : In p (byte_params c) -> b <> [] -> param_ok c (VClass p) (VBytes b)
| PO_int z v : unknown_attr (params_of c) (VInt z) -> plain v -> param_ok c (VInt z) v
| PO_text u v : unknown_attr (params_of c) (VStr u) -> plain v -> param_ok c (VStr u) v.

Definition bytes_param (k : key) (p : cls) (b : bytes) : Prop := param k p = Some (VBytes b).

(** The components a key of each type consists of. The coordinates of an EC2 key with a
    private part are those of its public key. *)
Definition components (X : crypto) (k : key) : Prop :=
  match k_cls k with
  | KSym => exists b, bytes_param k SymKpK b /\ In (length b) [16; 24; 32]
  | KOKP => has k OKPKpCurve /\ (has k OKPKpX \/ has k OKPKpD)
  | KEC2 =>
    exists cv x y, param k EC2KpCurve = Some (VClass cv) /\ bytes_param k EC2KpX x /\ bytes_param k EC2KpY y /\
      forall d, bytes_param k EC2KpD d ->
        (exists size, In (c_id cv, size) ec2_curves /\ length x = size /\ length y = size) /\
        x_ec_pub X (c_id cv) (of_be d) = Ok (of_be x, of_be y)
  | KRSA =>
    has k RSAKpN /\ has k RSAKpE /\
    let rest := [RSAKpD; RSAKpP; RSAKpQ; RSAKpDP; RSAKpDQ; RSAKpQInv] in
    (Forall (has k) rest \/ Forall (fun p => ~ has k p) rest)
  end.

(** A key with nothing but well-typed parameters and complete components. *)
Definition portable (X : crypto) (k : key) : Prop :=
  k_extra k = [] /\ distinct_keys (k_store k) = true /\ has k KpKty /\
  Forall (fun e => param_ok (k_cls k) (fst e) (snd e)) (k_store k) /\ components X k.

(** Two keys of one type with the same parameters. *)
Definition same_key (k k' : key) : Prop :=
  k_cls k' = k_cls k /\ k_extra k' = k_extra k /\ forall a, dget (k_store k') a = dget (k_store k) a.

(** Optional parameters as a caller may give them to a constructor: common parameters
    under any spelling, values as classes, ids or names, and unregistered labels. *)
Inductive option_ok (c : kclass) : pyval -> pyval -> Prop :=
| OO_kty n a v w : In (KpKty, n) (registered FKP) -> spells KpKty n a ->
    type_of c = VClass w -> spells w (cls_fullname w) v -> option_ok c a v
| OO_alg n a v w m : In (KpAlg, n) (registered FKP) -> spells KpAlg n a ->
    In (w, m) (registered FAlg) -> spells w m v -> option_ok c a v
| OO_ops n a l : In (KpKeyOps, n) (registered FKP) -> spells KpKeyOps n a ->
    Forall (fun o => exists w m, In (w, m) (registered FOps) /\ spells w m o) l -> option_ok c a (VList l)
| OO_kid n a v : In (KpKid, n) (registered FKP) -> spells KpKid n a -> plain v -> option_ok c a v
| OO_base_iv n a v : In (KpBaseIV, n) (registered FKP) -> spells KpBaseIV n a -> plain v -> option_ok c a v
| OO_int z v : unknown_attr (params_of c) (VInt z) -> plain v -> option_ok c (VInt z) v
| OO_text u v : unknown_attr (params_of c) (VStr u) -> plain v -> option_ok c (VStr u) v.

Definition options_ok (c : kclass) (opt : pyval) : Prop :=
  opt = VNone \/ exists d, opt = VDict d /\ Forall (fun e => option_ok c (fst e) (snd e)) d.

(** Keys built by the constructors with such options. Multi-prime RSA keys are left out
    (C62). *)
Inductive built (X : crypto) : key -> Prop :=
| BuiltSym kv opt allow k : options_ok KSym opt -> sym_init kv opt allow = Ok k -> built X k
| BuiltOKP crv x d opt allow k : options_ok KOKP opt -> okp_init crv x d opt allow = Ok k -> built X k
| BuiltEC2 crv x y d opt allow k : options_ok KEC2 opt -> ec2_init X crv x y d opt allow = Ok k -> built X k
| BuiltRSA n e d p q dp dq qinv other opt allow k : options_ok KRSA opt -> other = VNone \/ other = VList [] ->
    rsa_init (RsaArgs n e d p q dp dq qinv other (VBytes []) (VBytes []) (VBytes [])) opt allow = Ok k -> built X k.

(** ** Spellings of parameters in a dictionary (C39) *)

(** [a'] is the class, the integer id or the full name of the parameter with class [a];
    unregistered labels have one spelling. *)
Inductive spelling (c : kclass) : pyval -> pyval -> Prop :=
| Sp_class p n : In (p, n) (registered (params_of c)) -> spelling c (VClass p) (VClass p)
| Sp_id p n : In (p, n) (registered (params_of c)) -> spelling c (VClass p) (VInt (c_id p))
| Sp_name p n : In (p, n) (registered (params_of c)) -> spelling c (VClass p) (VStr n)
| Sp_int z : unknown_attr (params_of c) (VInt z) -> spelling c (VInt z) (VInt z)
| Sp_text u : unknown_attr (params_of c) (VStr u) -> spelling c (VStr u) (VStr u).

(** The same parameters and values, under other spellings. *)
Definition respelled (c : kclass) (d d' : dict) : Prop :=
  Forall2 (fun e e' => spelling c (fst e) (fst e') /\ snd e' = snd e) d d'.

(** [v] is the key type of [c], as a class, id or full name. *)
Definition names_kty (c : kclass) (v : pyval) : Prop :=
  exists w, type_of c = VClass w /\ (v = VClass w \/ v = VInt (c_id w) \/ v = VStr (cls_fullname w)).

(** The parameters the constructors take as arguments of their own. *)
Definition own_params (c : kclass) : list cls :=
  byte_params c ++ curve_param c ++ match c with KRSA => [RSAKpOther; RSAKpRi; RSAKpDi; RSAKpTi] | _ => [] end.

(** The value that counts when a parameter is given under several spellings: the one of
    its class, else of its id, else of its name. *)
Definition given (d : dict) (p : cls) (n : bytes) (v : pyval) : Prop :=
  dget d (VClass p) = Some v \/
  (dget d (VClass p) = None /\ dget d (VInt (c_id p)) = Some v) \/
  (dget d (VClass p) = None /\ dget d (VInt (c_id p)) = None /\ dget d (VStr n) = Some v).

(** [s] is a spelling of [p] in [d] that another one takes precedence over. *)
Definition overridden (d : dict) (p : cls) (n : bytes) (s : pyval) : Prop :=
  (dget d (VClass p) <> None /\ (s = VInt (c_id p) \/ s = VStr n)) \/
  (dget d (VInt (c_id p)) <> None /\ s = VStr n).
