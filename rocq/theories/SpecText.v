(** Vocabulary of C113: the text of a key and of a bucket of headers. *)
From Coq Require Import NArith ZArith Bool String Permutation Sorted.
From Coq Require Import Init.Byte List.
From Verif Require Import Bytes Value Registry Keys.
Import ListNotations.

(** The Python names of the parameters of keys, and of the objects found as their values. *)
Definition titles : list (cls * string) :=
  [(Cls FKP 1, "KpKty"); (Cls FKP 2, "KpKid"); (Cls FKP 3, "KpAlg"); (Cls FKP 4, "KpKeyOps"); (Cls FKP 5, "KpBaseIV");
   (Cls FSym (-1), "SymKpK");
   (Cls FOKP (-1), "OKPKpCurve"); (Cls FOKP (-2), "OKPKpX"); (Cls FOKP (-4), "OKPKpD");
   (Cls FEC2 (-1), "EC2KpCurve"); (Cls FEC2 (-2), "EC2KpX"); (Cls FEC2 (-3), "EC2KpY"); (Cls FEC2 (-4), "EC2KpD");
   (Cls FRSA (-1), "RSAKpN"); (Cls FRSA (-2), "RSAKpE"); (Cls FRSA (-3), "RSAKpD"); (Cls FRSA (-4), "RSAKpP");
   (Cls FRSA (-5), "RSAKpQ"); (Cls FRSA (-6), "RSAKpDP"); (Cls FRSA (-7), "RSAKpDQ"); (Cls FRSA (-8), "RSAKpQInv");
   (Cls FRSA (-9), "RSAKpOther"); (Cls FRSA (-10), "RSAKpRi"); (Cls FRSA (-11), "RSAKpDi"); (Cls FRSA (-12), "RSAKpTi");
   (Cls FKty 1, "KtyOKP"); (Cls FKty 2, "KtyEC2"); (Cls FKty 3, "KtyRSA"); (Cls FKty 4, "KtySymmetric");
   (Cls FOps 1, "SignOp"); (Cls FOps 2, "VerifyOp"); (Cls FOps 3, "EncryptOp"); (Cls FOps 4, "DecryptOp"); (Cls FOps 5, "WrapOp");
   (Cls FOps 6, "UnwrapOp"); (Cls FOps 7, "DeriveKeyOp"); (Cls FOps 8, "DeriveBitsOp"); (Cls FOps 9, "MacCreateOp"); (Cls FOps 10, "MacVerifyOp");
   (Cls FCrv 1, "P256"); (Cls FCrv 2, "P384"); (Cls FCrv 3, "P521"); (Cls FCrv 4, "X25519"); (Cls FCrv 5, "X448");
   (Cls FCrv 6, "Ed25519"); (Cls FCrv 7, "Ed448"); (Cls FCrv 8, "SECP256K1");
   (Cls FHdr 1, "Algorithm"); (Cls FHdr 2, "Critical"); (Cls FHdr 3, "ContentType"); (Cls FHdr 4, "KID"); (Cls FHdr 5, "IV"); (Cls FHdr 6, "PartialIV");
   (Cls FHdr 7, "CounterSignature"); (Cls FHdr 9, "CounterSignature0"); (Cls FHdr 10, "KIDContext"); (Cls FHdr 32, "X5bag"); (Cls FHdr 33, "X5chain");
   (Cls FHdr 34, "X5t"); (Cls FHdr 35, "X5u"); (Cls FHdr (-1), "EphemeralKey"); (Cls FHdr (-2), "StaticKey"); (Cls FHdr (-3), "StaticKeyID");
   (Cls FHdr (-20), "Salt"); (Cls FHdr (-21), "PartyUID"); (Cls FHdr (-22), "PartyUNonce"); (Cls FHdr (-23), "PartyUOther");
   (Cls FHdr (-24), "PartyVID"); (Cls FHdr (-25), "PartyVNonce"); (Cls FHdr (-26), "PartyVOther");
   (Cls FHdr (-998), "SuppPubOther"); (Cls FHdr (-999), "SuppPrivOther");
   (Cls FAlg (-7), "Es256"); (Cls FAlg (-8), "EdDSA"); (Cls FAlg 1, "A128GCM"); (Cls FAlg 5, "HMAC256")]%Z%string.

(** [w] is how the object [v] is written: an attribute by its name, anything else as it is.
    Attributes missing above may have any name. *)
Definition written (v w : pyval) : Prop :=
  match v with
  | VClass c => exists n, w = VStr n /\ forall t, In (c, t) titles -> n = bs t
  | _ => w = v
  end.

(** The bytes of a [str] that begin a character. *)
Definition begins (b : byte) : bool := negb ((128 <=? Byte.to_N b)%N && (Byte.to_N b <=? 191)%N).
Definition characters (u : bytes) : nat := length (filter begins u).

(** The first five elements of [v] are [s], and it has [n] elements. *)
Inductive opening : pyval -> pyval -> nat -> Prop :=
| OpBytes b : opening (VBytes b) (VBytes (firstn 5 b)) (length b)
| OpList l : opening (VList l) (VList (firstn 5 l)) (length l)
| OpTuple l : opening (VTuple l) (VTuple (firstn 5 l)) (length l)
| OpStr p r : characters p <= 5 -> (characters p < 5 -> r = []) -> (forall b r', r = b :: r' -> begins b = true) ->
    opening (VStr (p ++ r)) (VStr p) (characters (p ++ r)).

(** The numbers that are abbreviated. *)
Definition abbreviated (c : kclass) : list cls :=
  match c with
  | KSym => [SymKpK]
  | KOKP => [OKPKpX; OKPKpD]
  | KEC2 => [EC2KpX; EC2KpY; EC2KpD]
  | KRSA => []
  end.

(** How the value [v] of [a] appears, when the values of [cut] are abbreviated: their
    beginning and their length. *)
Inductive shown_as (cut : list cls) (a v : pyval) : pyval -> Prop :=
| SA_plain w : a <> VClass KpKeyOps -> ~ In a (map VClass cut) -> written v w -> shown_as cut a v w
| SA_ops w l ws : a = VClass KpKeyOps -> written v w -> py_iter w = Ok l -> Forall2 written l ws -> shown_as cut a v (VList ws)
| SA_empty w : In a (map VClass cut) -> written v w -> py_len w = Ok 0 -> shown_as cut a v w
| SA_cut w s n : In a (map VClass cut) -> written v w -> opening w s (S n) -> shown_as cut a v (VTuple [s; VInt (Z.of_nat (S n))]).

(** One line of the text: the name and the value. *)
Definition line (cut : list cls) (e t : pyval * pyval) : Prop :=
  written (fst e) (fst t) /\ shown_as cut (fst e) (snd e) (snd t).

(** The number of a parameter; those without one come last. *)
Definition number (a : pyval) : Z := match a with VClass c => c_id c | _ => 65536%Z end.
Definition in_order (e f : pyval * pyval) : Prop := (number (fst e) <= number (fst f))%Z.

(** The labels are attributes with a name in [titles] or private ones; and no private label is
    the name of an attribute. *)
Definition ordinary_labels (s : dict) : Prop :=
  forall a v, In (a, v) s ->
    match a with
    | VClass c => In c (map fst titles)
    | VStr u => ~ In u (map bs ["BASE_IV"; "PARTIAL_IV"; "OKPKpY"]%string ++ map (fun e => bs (snd e)) titles)
    | _ => True
    end.
