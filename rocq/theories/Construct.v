(** Calls of the constructors of messages, signers and recipients: how positional and keyword
    arguments reach the fields of the new object through the chain of [__init__] methods. *)
From Coq Require Import NArith ZArith Bool String.
From Coq Require Import Init.Byte List.
From Verif Require Import Bytes Value Cbor Registry Crypto Keys Headers Recipients.
Import ListNotations.
Local Open Scope result_scope.

(** What can be passed: a value, a list of recipients ([None] is an object that is not one),
    a list of signers. recipient.py:112, signmessage.py:45. *)
Inductive arg := AVal (v : pyval) | ARcpts (l : list (option rcpt)) | ASigners (l : list core).

(** A list of recipients or signers where a value is expected: a list that is no dict, no byte
    string and no key. Simplification: its elements are left out. cosebase.py:28-59,
    cosemessage.py:108-138. *)
Definition val (a : arg) : pyval :=
  match a with
  | AVal v => v
  | ARcpts l => VList (map (fun _ => VNone) l)
  | ASigners l => VList (map (fun _ => VNone) l)
  end.

(** The arguments of a call, [f( *pos, **kw)]; e.g. cosemessage.py:93. *)
Record call := Call { pos : list arg; kw : list (string * arg) }.

(** [kwargs.get(n)], cosebase.py:50. *)
Fixpoint get_kw (n : string) (l : list (string * arg)) : option arg :=
  match l with
  | [] => None
  | (m, v) :: r => if String.eqb n m then Some v else get_kw n r
  end.
(** The keyword arguments without one, as in the [**kwargs] of a method that has this
    parameter; e.g. cosemessage.py:84-91. *)
Definition drop_kw (n : string) (l : list (string * arg)) : list (string * arg) :=
  filter (fun p => negb (String.eqb n (fst p))) l.
(** The same keyword twice, as in [f(key=None, **kwargs)], signmessage.py:49. *)
Fixpoint repeated (l : list string) : bool :=
  match l with [] => false | n :: r => existsb (String.eqb n) r || repeated r end.

(** Python's binding of arguments to parameters with defaults, for a method that also has
    [*args] and [**kwargs]: the values of the parameters, and what is left for [*args] and
    [**kwargs]. cosebase.py:27, cosemessage.py:84-91. *)
Fixpoint bind_params (ps : list (string * arg)) (vs : list arg) (l : list (string * arg)) : result (list arg * call) :=
  match ps with
  | [] => Ok ([], Call vs l)
  | (n, d) :: ps' =>
    match vs, get_kw n l with
    | _ :: _, Some _ => Err TypeError
    | v :: vs', None => '(r, c) <- bind_params ps' vs' l ;; Ok (v :: r, c)
    | [], Some v => '(r, c) <- bind_params ps' [] (drop_kw n l) ;; Ok (v :: r, c)
    | [], None => '(r, c) <- bind_params ps' [] l ;; Ok (d :: r, c)
    end
  end.

(** Entering an [__init__] method: no keyword twice, and [self] is taken.
    cosebase.py:27, cosemessage.py:84-91. *)
Definition enter (ps : list (string * arg)) (c : call) : result (list arg * call) :=
  if repeated (map fst (kw c)) || existsb (String.eqb "self") (map fst (kw c)) then Err TypeError
  else bind_params ps (pos c) (kw c).

(** Default values; cosebase.py:27, cosemessage.py:84-91. *)
Definition none := AVal VNone.
Definition empty := AVal (VBytes []).   (* b'', enc0message.py:33 *)

(** The parameters of the [__init__] methods. *)
Definition base_params : list (string * arg) := (* cosebase.py:27 *)
  [("phdr", none); ("uhdr", none); ("payload", none); ("phdr_encoded", none)]%string.
Definition message_params (payload : arg) : list (string * arg) := (* cosemessage.py:84-91, enccommon.py:24-31, maccommon.py:23-30 *)
  [("phdr", none); ("uhdr", none); ("payload", payload); ("external_aad", empty); ("key", none)]%string.

Section WithCrypto.
Context (X : crypto).

(** [CoseBase.__init__], cosebase.py:27-59. The payload is set here, the remaining fields by
    the caller. *)
Definition base_init (c : call) : result core :=
  '(l, r) <- enter base_params c ;;
  match l with
  | [p; u; pl; e] =>
    ph <- (match val p, val e with
           | VNone, VNone => Ok (VDict [])
           | VNone, e' => if veqb e' (VBytes []) then Ok (VDict []) else loads e'
           | p', VNone => Ok p'
           | _, _ => Err ValueError
           end) ;;
    let uh := match val u with VNone => VDict [] | u' => u' end in
    match ph, uh with
    | VDict pd, VDict ud =>
      let tstr := match get_kw "alg_tstr_encoding" (kw r) with Some v => truthy (val v) | None => false end in
      let allow := match get_kw "allow_unknown_attributes" (kw r) with Some v => truthy (val v) | None => true end in
      ph' <- parse_items X allow pd [] ;;
      uh' <- parse_items X allow ud [] ;;
      raw <- (match val e with
              | VNone => Ok None
              | VBytes b => Ok (Some b)
              | _ => Err TypeError (* not reached: [loads] has raised *)
              end) ;;
      pl' <- check_payload (val pl) ;;
      Ok (Core ph' raw uh' [] tstr pl' [] None)
    | _, _ => Err TypeError
    end
  | _ => Err TypeError (* not reached *)
  end.

(** [CoseMessage.__init__], cosemessage.py:84-97. *)
Definition message_init (c : call) : result core :=
  '(l, r) <- enter (message_params none) c ;;
  match l with
  | [p; u; pl; ad; k] =>
    m <- base_init (Call (p :: u :: pos r) (kw r)) ;;
    pl' <- check_payload (val pl) ;;
    ad' <- check_aad (val ad) ;;
    k' <- check_key (val k) ;;
    Ok (with_key (with_aad (with_payload m pl') ad') k')
  | _ => Err TypeError (* not reached *)
  end.

(** A method that hands its parameters on by position, [super().__init__(phdr, uhdr, payload,
    external_aad, key, *args, **kwargs)]; enccommon.py:32, maccommon.py:32, sign1message.py:38,
    enc0message.py:51, mac0message.py:40. *)
Definition forward (ps : list (string * arg)) (c : call) : result call :=
  '(l, r) <- enter ps c ;; Ok (Call (l ++ pos r) (kw r)).

(** The new object: its fields, the signature or tag it starts with, and what its [signers] or
    [recipients] attribute holds. sign1message.py:40, maccommon.py:34, signmessage.py:51-54,
    encmessage.py:57-58, macmessage.py:58-59. *)
Record obj := Obj { o_core : core; o_mark : pyval; o_members : arg }.

(** [recipients.setter] on a new object, encmessage.py:129-138, recipient.py:139-148: an
    empty iterable has no recipients; the elements of another one are no recipients.
    Simplification: objects made by decoders of CBOR tags are not iterable. *)
Definition take_recipients (a : arg) : result arg :=
  match a with
  | AVal VNone => Ok (ARcpts [])
  | AVal (VBytes []) | AVal (VStr []) | AVal (VList []) | AVal (VTuple []) | AVal (VDict []) | AVal (VKey _ [] _)
  | ASigners [] => Ok (ARcpts [])
  | ARcpts l => match set_recipients [] (Some l) with (r, Ok _) => Ok (ARcpts (map Some r)) | (_, Err e) => Err e end
  | _ => Err TypeError
  end.

(** [_SignMessage.__init__], [signers.setter], signmessage.py:51-54,67-74. Simplification: the
    elements of a list of other objects take no attributes, so [s._parent = self] raises. *)
Definition take_signers (a : arg) : result arg :=
  match a with
  | AVal VNone | AVal (VList []) | ARcpts [] => Ok (ASigners [])
  | ASigners l => Ok (ASigners l)
  | AVal (VList _) | ARcpts _ => Err AttributeError
  | AVal _ => Err CoseException
  end.

(** The classes with constructors of their own. *)
Inductive kind := NSign1 | NSign | NSigner | NEnc0 | NEnc | NMac0 | NMac | NRcpt.

(** The parameters of the constructor of each class: sign1message.py:29-36,
    signmessage.py:41-47, signer.py:24-31, enc0message.py:30-37, encmessage.py:36-44,
    mac0message.py:31-38, macmessage.py:46-54, recipient.py:106-114. *)
Definition params (k : kind) : list (string * arg) :=
  match k with
  | NSign1 => message_params none
  | NSign => [("phdr", none); ("uhdr", none); ("payload", none); ("signers", none)]%string
  | NSigner => [("phdr", none); ("uhdr", none); ("signature", empty); ("external_aad", empty); ("key", none)]%string
  | NEnc0 | NMac0 => message_params empty
  | NEnc | NMac | NRcpt => message_params empty ++ [("recipients"%string, none)]
  end.

(** Splitting off the last parameter of [EncMessage.__init__], [MacMessage.__init__] and
    [CoseRecipient.__init__]: encmessage.py:55-58, macmessage.py:56-59, recipient.py:125-129. *)
Definition with_recipients (k : kind) (c : call) : result (call * arg) :=
  '(l, r) <- enter (params k) c ;;
  match l with
  | [p; u; pl; ad; ky; rs] => Ok (Call ([p; u; pl; ad; ky] ++ pos r) (kw r), rs)
  | _ => Err TypeError (* not reached *)
  end.

(** The constructors: sign1message.py:29-40, signmessage.py:41-54, signer.py:24-35,
    enc0message.py:30-51, encmessage.py:36-58, mac0message.py:31-40, macmessage.py:46-59,
    recipient.py:106-129, with [EncCommon] and [MacCommon] between where they are base
    classes: enccommon.py:24-32, maccommon.py:23-34. *)
Definition new (k : kind) (c : call) : result obj :=
  match k with
  | NSign1 =>
    c1 <- forward (params NSign1) c ;; m <- message_init c1 ;; Ok (Obj m (VBytes []) none)
  | NSign =>
    '(l, r) <- enter (params NSign) c ;;
    match l with
    | [p; u; pl; s] =>
      m <- message_init (Call ([p; u; pl] ++ pos r) (("external_aad"%string, empty) :: ("key"%string, none) :: kw r)) ;;
      s' <- take_signers s ;;
      Ok (Obj m VNone s')
    | _ => Err TypeError (* not reached *)
    end
  | NSigner =>
    '(l, r) <- enter (params NSigner) c ;;
    match l with
    | [p; u; s; ad; ky] =>
      m <- message_init (Call ([p; u] ++ pos r)
             (("payload"%string, s) :: ("external_aad"%string, ad) :: ("key"%string, ky) :: kw r)) ;;
      Ok (Obj m VNone none)
    | _ => Err TypeError (* not reached *)
    end
  | NEnc0 =>
    c1 <- forward (params NEnc0) c ;; c2 <- forward (message_params empty) c1 ;;
    m <- message_init c2 ;; Ok (Obj m VNone none)
  | NEnc =>
    '(c1, rs) <- with_recipients NEnc c ;; c2 <- forward (message_params empty) c1 ;;
    m <- message_init c2 ;; rs' <- take_recipients rs ;; Ok (Obj m VNone rs')
  | NMac0 =>
    c1 <- forward (params NMac0) c ;; c2 <- forward (message_params empty) c1 ;;
    m <- message_init c2 ;; Ok (Obj m (VBytes []) none)
  | NMac =>
    '(c1, rs) <- with_recipients NMac c ;; c2 <- forward (message_params empty) c1 ;;
    m <- message_init c2 ;; Ok (Obj m (VBytes []) rs)
  | NRcpt =>
    '(c1, rs) <- with_recipients NRcpt c ;; m <- message_init c1 ;;
    rs' <- take_recipients rs ;; Ok (Obj m VNone rs')
  end.
End WithCrypto.
