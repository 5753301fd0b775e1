(** The header maps of messages as objects in memory: which of them share dictionaries, lists
    and keys with the program that made them (pycose/messages/cosebase.py:27-122). *)
From Coq Require Import NArith ZArith Bool String.
From Coq Require Import Init.Byte List.
From Verif Require Import Bytes Value Registry Crypto Keys Headers.
Import ListNotations.
Local Open Scope result_scope.

(** A reference as stored in a dict or list: a value that cannot change (number, text, bytes,
    attribute class, ...), or the address of an object that can. cosebase.py:91,107,122,
    169-171. *)
Inductive hv := Imm (v : pyval) | At (l : N).

(** The objects that can change: dicts, lists and keys. Simplification: a key is one object
    with its [store]; its attributes outside the store do not change. cosebase.py:27-122,
    cosekey.py:182. *)
Inductive kind := KDict | KList | KKey (c : kclass) (extra : dict).
(** The entries of a dict or key; of a list the elements (their labels mean nothing).
    cosebase.py:164-173, cosekey.py:182. *)
Record obj := Obj { o_kind : kind; o_items : list (pyval * hv) }.
(** The objects, and the first free address. cosebase.py:48-59. *)
Record mem := Mem { m_obj : N -> obj; m_next : N }.

(** Changing one object in place, e.g. cosebase.py:107,113,122. *)
Definition put (m : mem) (l : N) (o : obj) : mem :=
  Mem (fun j => if N.eqb j l then o else m_obj m j) (m_next m).
(** Making a new object, e.g. cosebase.py:48,164. *)
Definition alloc (m : mem) (o : obj) : mem * N :=
  (Mem (fun j => if N.eqb j (m_next m) then o else m_obj m j) (N.succ (m_next m)), m_next m).

(** ** What an object looks like at present *)

Section Items.
Variable g : hv -> option pyval.
(** The entries of an object, one after another. cosebase.py:164-165. *)
Fixpoint opt_items (l : list (pyval * hv)) : option dict :=
  match l with
  | [] => Some []
  | (k, x) :: r =>
    match g x, opt_items r with Some v, Some d => Some ((k, v) :: d) | _, _ => None end
  end.
End Items.

(** The value of an object with these entries. cosebase.py:164-173, cosekey.py:182. *)
Definition build (k : kind) (d : dict) : pyval :=
  match k with KDict => VDict d | KList => VList (map snd d) | KKey c e => VKey c d e end.

(** The value behind a reference, at most [n] objects deep; [None] if it is deeper (or
    contains itself). Everything that reads a header, e.g. cosebase.py:72-73,134. *)
Fixpoint view (n : nat) (f : N -> obj) (x : hv) : option pyval :=
  match x with
  | Imm v => Some v
  | At l =>
    match n with
    | O => None
    | S n' =>
      match opt_items (view n' f) (o_items (f l)) with
      | Some d => Some (build (o_kind (f l)) d)
      | None => None
      end
    end
  end.

(** ** Dicts of references: as in Value.v *)

(** [d[k] = x], cosebase.py:122,169-171. *)
Fixpoint hset (d : list (pyval * hv)) (k : pyval) (x : hv) : list (pyval * hv) :=
  match d with
  | [] => [(k, x)]
  | (k', y) :: r => if keyeq k k' then (k', x) :: r else (k', y) :: hset r k x
  end.
(** [d.update(e)], cosebase.py:107,113,121-122. *)
Definition hupdate (d e : list (pyval * hv)) : list (pyval * hv) :=
  fold_left (fun acc kx => hset acc (fst kx) (snd kx)) e d.
(** [d.get(k)], cosebase.py:72-73. *)
Fixpoint hget (d : list (pyval * hv)) (k : pyval) : option hv :=
  match d with [] => None | (k', x) :: r => if keyeq k k' then Some x else hget r k end.

(** ** [copy.deepcopy], called at cosebase.py:91,102 *)

(** The memo: the copies made so far. cosebase.py:91,102. *)
Definition memo := list (N * N).
(** A lookup in the memo. cosebase.py:91,102. *)
Fixpoint copied (s : memo) (l : N) : option N :=
  match s with [] => None | (a, b) :: r => if N.eqb l a then Some b else copied r l end.

Section CopyItems.
Variable cp : memo -> mem -> hv -> option (mem * memo * hv).
(** The entries of an object, one after another (cosebase.py:91,102). *)
Fixpoint copy_items (s : memo) (m : mem) (l : list (pyval * hv)) : option (mem * memo * list (pyval * hv)) :=
  match l with
  | [] => Some (m, s, [])
  | (k, x) :: r =>
    match cp s m x with
    | None => None
    | Some (m1, s1, y) =>
      match copy_items s1 m1 r with
      | None => None
      | Some (m2, s2, r') => Some (m2, s2, (k, y) :: r')
      end
    end
  end.
End CopyItems.

(** [copy.deepcopy(x)]: an object met again, also inside itself, is copied once. [n] bounds the
    nesting; [None] is RecursionError. cosebase.py:91,102. *)
Fixpoint copy (n : nat) (s : memo) (m : mem) (x : hv) : option (mem * memo * hv) :=
  match x with
  | Imm v => Some (m, s, Imm v)
  | At l =>
    match copied s l with
    | Some l' => Some (m, s, At l')
    | None =>
      match n with
      | O => None
      | S n' =>
        let o := m_obj m l in
        let '(m1, l') := alloc m (Obj (o_kind o) []) in
        match copy_items (copy n') ((l, l') :: s) m1 (o_items o) with
        | None => None
        | Some (m2, s2, its) => Some (put m2 l' (Obj (o_kind o) its), s2, At l')
        end
      end
    end
  end.

(** ** Messages *)

(** The header maps and local attributes of a message object, by address, and the bytes it
    received. cosebase.py:48-59. *)
Record msgobj := MsgObj { b_phdr : N; b_uhdr : N; b_local : N; b_raw : option bytes }.
(** All objects of a program and its messages, numbered. cosebase.py:27-59. *)
Record shared := Shared { s_mem : mem; s_msg : N -> msgobj; s_count : N }.

(** Assignment to the attributes of message [g]. cosebase.py:91-92,102,108. *)
Definition set_msg (w : shared) (m : mem) (g : N) (b : msgobj) : shared :=
  Shared m (fun j => if N.eqb j g then b else s_msg w j) (s_count w).

(** [type(d) is not dict], cosebase.py:42,45,89,100,105,111: the entries. *)
Definition dict_items (m : mem) (x : hv) : result (list (pyval * hv)) :=
  match x with
  | At l => match o_kind (m_obj m l) with KDict => Ok (o_items (m_obj m l)) | _ => Err TypeError end
  | Imm _ => Err TypeError
  end.

(** [attributes.items()], cosebase.py:121. *)
Definition mapping_items (m : mem) (x : hv) : result (list (pyval * hv)) :=
  match x with
  | At l => match o_kind (m_obj m l) with KList => Err AttributeError | _ => Ok (o_items (m_obj m l)) end
  | Imm _ => Err AttributeError
  end.

Section WithCrypto.
Variable X : crypto.
(** How deep values are looked into. *)
Variable depth : nat.

(** Which object the parser of header [a] returns for the object [x] with the value [v']: the
    parsers of the algorithm and of keys make a new one, the others return their argument
    (headers.py:171-200, algorithms.py:1423, cosekey.py:321-322, cosebase.py:168-171).
    Simplification: the lists in such a new key do not change. *)
Definition parsed_ref (m : mem) (a v' : pyval) (x : hv) : mem * hv :=
  match a with
  | VClass (Cls FHdr 1) => (m, Imm v')
  | VClass (Cls FHdr (-1)) | VClass (Cls FHdr (-2)) =>
    match v' with
    | VKey c s e => let '(m', l) := alloc m (Obj (KKey c e) (map (fun kv => (fst kv, Imm (snd kv))) s)) in (m', At l)
    | _ => (m, Imm v')
    end
  | _ => (m, x)
  end.

(** [_parse_header], cosebase.py:162-173. Simplification: a value deeper than [depth] is
    refused. *)
Fixpoint parse_refs (allow : bool) (m : mem) (h acc : list (pyval * hv)) : result (mem * list (pyval * hv)) :=
  match h with
  | [] => Ok (m, acc)
  | (k, x) :: r =>
    a <- from_id FHdr allow k ;;
    v <- (match view depth (m_obj m) x with Some v => Ok v | None => Err FuelExhausted end) ;;
    v' <- parse_value X a v ;;
    let '(m', y) := parsed_ref m a v' x in
    parse_refs allow m' r (hset acc a y)
  end.

(** What a program can do: make a message from two dicts (cosebase.py:27-59), assign to or
    update its headers (87-113), assign local attributes (119-122), make an object of its own,
    and change any object it can get hold of, including the header maps that the getters
    return (83-85, 94-96, 115-117). *)
Inductive aop :=
| New (p u : hv) (allow : bool)
| SetP (g : N) (x : hv) | SetU (g : N) (x : hv) | UpdP (g : N) (x : hv) | UpdU (g : N) (x : hv) | SetL (g : N) (x : hv)
| Make (o : obj)
| Change (l : N) (o : obj).

(** One step, cosebase.py:27-122; the number of the new message or object. [Err FuelExhausted]
    stands for RecursionError. *)
Definition astep (w : shared) (o : aop) : shared * result (option N) :=
  let m := s_mem w in
  match o with
  | New p u allow =>
    match (pi <- dict_items m p ;; ui <- dict_items m u ;;
           '(m1, ph) <- parse_refs allow m pi [] ;; '(m2, uh) <- parse_refs allow m1 ui [] ;; Ok (m2, ph, uh)) with
    | Err e => (w, Err e)
    | Ok (m2, ph, uh) =>
      let '(m3, ll) := alloc m2 (Obj KDict []) in
      let '(m4, lp) := alloc m3 (Obj KDict ph) in
      let '(m5, lu) := alloc m4 (Obj KDict uh) in
      let g := s_count w in
      (Shared m5 (fun j => if N.eqb j g then MsgObj lp lu ll None else s_msg w j) (N.succ g), Ok (Some g))
    end
  | SetP g x =>
    match dict_items m x, copy depth [] m x with
    | Err e, _ => (w, Err e)
    | Ok _, Some (m', _, At l) => let b := s_msg w g in (set_msg w m' g (MsgObj l (b_uhdr b) (b_local b) None), Ok None)
    | Ok _, _ => (w, Err FuelExhausted)
    end
  | SetU g x =>
    match dict_items m x, copy depth [] m x with
    | Err e, _ => (w, Err e)
    | Ok _, Some (m', _, At l) => let b := s_msg w g in (set_msg w m' g (MsgObj (b_phdr b) l (b_local b) (b_raw b)), Ok None)
    | Ok _, _ => (w, Err FuelExhausted)
    end
  | UpdP g x =>
    match dict_items m x with
    | Err e => (w, Err e)
    | Ok its =>
      let b := s_msg w g in
      (set_msg w (put m (b_phdr b) (Obj KDict (hupdate (o_items (m_obj m (b_phdr b))) its))) g (MsgObj (b_phdr b) (b_uhdr b) (b_local b) None), Ok None)
    end
  | UpdU g x =>
    match dict_items m x with
    | Err e => (w, Err e)
    | Ok its =>
      let b := s_msg w g in
      (set_msg w (put m (b_uhdr b) (Obj KDict (hupdate (o_items (m_obj m (b_uhdr b))) its))) g b, Ok None)
    end
  | SetL g x =>
    match mapping_items m x with
    | Err e => (w, Err e)
    | Ok its =>
      let b := s_msg w g in
      (set_msg w (put m (b_local b) (Obj KDict (hupdate (o_items (m_obj m (b_local b))) its))) g b, Ok None)
    end
  | Make o => let '(m', l) := alloc m o in (Shared m' (s_msg w) (s_count w), Ok (Some l))
  | Change l o => (Shared (put m l o) (s_msg w) (s_count w), Ok None)
  end.

End WithCrypto.

(** Before the program starts: no object, no message. cosebase.py:27-59. *)
Definition nothing : shared := Shared (Mem (fun _ => Obj KDict []) 0) (fun _ => MsgObj 0 0 0 None) 0.
