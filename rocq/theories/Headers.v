(** Header buckets: pycose/headers.py parsers and pycose/messages/cosebase.py, plus
    the fields of pycose/messages/cosemessage.py shared by all messages. *)
From Coq Require Import NArith ZArith Bool String.
From Coq Require Import Init.Byte List.
From Verif Require Import Bytes Value Cbor Registry Crypto Keys.
Import ListNotations.
Local Open Scope result_scope.

Section WithCrypto.
Variable X : crypto.

(** ** Value parsers *)

(** [is_bstr], headers.py:171-175. *)
Definition is_bstr (v : pyval) : result pyval :=
  if is_bytes v then Ok v else Err ValueError.

(** [isinstance(x, (int, str))]. headers.py:179. *)
Definition int_or_str (v : pyval) : bool :=
  match v with VInt _ | VBool _ | VStr _ => true | _ => false end.

(** [crit_is_array], headers.py:178-182. *)
Definition crit_is_array (v : pyval) : result pyval :=
  match v with
  | VList l =>
    if Nat.ltb (length l) 1 || negb (forallb int_or_str l) then Err ValueError else Ok v
  | _ => Err ValueError
  end.

(** [content_type_is_uint_or_tstr], headers.py:185-190. *)
Definition content_type_is_uint_or_tstr (v : pyval) : result pyval :=
  match v with
  | VStr _ => Ok v
  | _ =>
    match as_int v with
    | Some z => if Z.ltb z 0 then Err ValueError else Ok v
    | None => Err ValueError
    end
  end.

(** [attr.value_parser(v)]: headers.py:194-200, algorithms.py:1423,
    cosekey.py:321-322; the default (utils.py:8-12) returns its argument. *)
Definition parse_value (attr v : pyval) : result pyval :=
  match attr with
  | VClass (Cls FHdr 1) => from_id FAlg false v
  | VClass (Cls FHdr 2) => crit_is_array v
  | VClass (Cls FHdr 3) => content_type_is_uint_or_tstr v
  | VClass (Cls FHdr 4) | VClass (Cls FHdr 5) | VClass (Cls FHdr 6)
  | VClass (Cls FHdr 9) | VClass (Cls FHdr 10) => is_bstr v
  | VClass (Cls FHdr (-1)) | VClass (Cls FHdr (-2)) => k <- from_dict X v ;; Ok (kval k)
  | _ => Ok v
  end.

(** [_parse_header], cosebase.py:162-173. *)
Fixpoint parse_items (allow : bool) (h acc : dict) : result dict :=
  match h with
  | [] => Ok acc
  | (k, v) :: r =>
    a <- from_id FHdr allow k ;;
    v' <- parse_value a v ;;
    parse_items allow r (dset acc a v')
  end.

(** [_parse_header], cosebase.py:162-173. *)
Definition parse_header (allow : bool) (h : pyval) : result dict :=
  match h with
  | VDict d => parse_items allow d []
  | VKey _ s _ => parse_items allow s []
  | _ => Err AttributeError
  end.

(** ** The state of a message object (cosebase.py:48-59, cosemessage.py:95-97) *)
Record core := Core {
  phdr : dict;                 (* _phdr *)
  phdr_raw : option bytes;     (* _phdr_encoded *)
  uhdr : dict;                 (* _uhdr *)
  local : dict;                (* _local_attrs *)
  tstr : bool;                 (* alg_tstr_encoding *)
  payload : option bytes;      (* _payload *)
  aad : bytes;                 (* _external_aad *)
  ckey : option key }.         (* _key *)

(** [self._payload = ...], cosemessage.py:134-138. *)
Definition with_payload (c : core) (p : option bytes) : core :=
  Core (phdr c) (phdr_raw c) (uhdr c) (local c) (tstr c) p (aad c) (ckey c).
(** [self._key = ...], cosemessage.py:118-128. *)
Definition with_key (c : core) (k : option key) : core :=
  Core (phdr c) (phdr_raw c) (uhdr c) (local c) (tstr c) (payload c) (aad c) k.
(** [self._uhdr = ...], cosebase.py:98-102,110-113. *)
Definition with_uhdr (c : core) (u : dict) : core :=
  Core (phdr c) (phdr_raw c) u (local c) (tstr c) (payload c) (aad c) (ckey c).
(** [self._phdr = ...; self._phdr_encoded = ...], cosebase.py:87-92,104-108. *)
Definition with_phdr (c : core) (p : dict) (raw : option bytes) : core :=
  Core p raw (uhdr c) (local c) (tstr c) (payload c) (aad c) (ckey c).
(** [self._external_aad = ...], cosemessage.py:108-112. *)
Definition with_aad (c : core) (a : bytes) : core :=
  Core (phdr c) (phdr_raw c) (uhdr c) (local c) (tstr c) (payload c) a (ckey c).
(** [self._local_attrs = ...], cosebase.py:119-122. *)
Definition with_local (c : core) (l : dict) : core :=
  Core (phdr c) (phdr_raw c) (uhdr c) l (tstr c) (payload c) (aad c) (ckey c).

(** [payload.setter], cosemessage.py:134-138. *)
Definition check_payload (v : pyval) : result (option bytes) :=
  match v with VNone => Ok None | VBytes b => Ok (Some b) | _ => Err TypeError end.

(** [external_aad.setter], cosemessage.py:108-112. *)
Definition check_aad (v : pyval) : result bytes := as_bytes v.

(** [key.setter], cosemessage.py:118-128. *)
Definition check_key (v : pyval) : result (option key) :=
  match v with
  | VNone => Ok None
  | VKey c s e => Ok (Some (Key c s e))
  | _ => Err CoseInvalidKey
  end.

(** The arguments of the message constructors. cosebase.py:27, cosemessage.py:84-91;
    [allow] and [tstr] are the keyword arguments read at cosebase.py:50-54. *)
Record args := Args {
  a_phdr : pyval; a_uhdr : pyval; a_payload : pyval; a_aad : pyval; a_key : pyval;
  a_phdr_encoded : pyval; a_tstr : bool; a_allow : bool }.

(** [CoseBase.__init__] (cosebase.py:27-59) then [CoseMessage.__init__]
    (cosemessage.py:84-97). *)
Definition core_init (a : args) : result core :=
  ph <- (match a_phdr a, a_phdr_encoded a with
         | VNone, VNone => Ok (VDict [])
         | VNone, e => if veqb e (VBytes []) then Ok (VDict []) else loads e
         | p, VNone => Ok p
         | _, _ => Err ValueError
         end) ;;
  let uh := match a_uhdr a with VNone => VDict [] | u => u end in
  match ph, uh with
  | VDict pd, VDict ud =>
    p <- parse_items (a_allow a) pd [] ;;
    u <- parse_items (a_allow a) ud [] ;;
    raw <- (match a_phdr_encoded a with
            | VNone => Ok None
            | VBytes b => Ok (Some b)
            | _ => Err TypeError (* not reached: [loads] has raised *)
            end) ;;
    pl <- check_payload (a_payload a) ;;
    ad <- check_aad (a_aad a) ;;
    k <- check_key (a_key a) ;;
    Ok (Core p raw u [] (a_tstr a) pl ad k)
  | _, _ => Err TypeError
  end.

(** ** Header access *)

(** [get_attr], cosebase.py:61-81. *)
Definition get_attr_default (c : core) (a dflt : pyval) : result pyval :=
  let p := dget_or (phdr c) a dflt in
  let u := dget_or (uhdr c) a dflt in
  if negb (is_none p) && negb (is_none u) then Err CoseException
  else if negb (is_none p) then Ok p else Ok u.

(** [get_attr], cosebase.py:61-81. *)
Definition get_attr (c : core) (a : pyval) : result pyval := get_attr_default c a VNone.

(** [cbor2.dumps(x, default=self._custom_cbor_encoder)], cosebase.py:151-160. *)
Definition dumps_msg (c : core) (v : pyval) : result bytes :=
  dumps cls_fullname (HMsg (tstr c)) v.

(** [phdr_encoded], cosebase.py:124-138. *)
Definition phdr_encoded (c : core) : result bytes :=
  match phdr_raw c with
  | Some b => Ok b
  | None =>
    match phdr c with
    | [] => Ok []
    | d => dumps_msg c (VDict d)
    end
  end.

(** [_base_structure], cosemessage.py:149-157: the protected field. *)
Definition base_protected (c : core) : result bytes :=
  match phdr c with
  | [] => Ok []
  | _ => phdr_encoded c
  end.

(** Header operations on a message object. [HSetPItem]/[HSetUItem]/... act on the
    dict returned by the [phdr]/[uhdr] getters (cosebase.py:83-85,94-96), which is
    the message's own. *)
Inductive hdr_op :=
| HSetPhdr (v : pyval)          (* msg.phdr = v         cosebase.py:87-92 *)
| HSetUhdr (v : pyval)          (* msg.uhdr = v         cosebase.py:98-102 *)
| HUpdatePhdr (v : pyval)       (* msg.phdr_update(v)   cosebase.py:104-108 *)
| HUpdateUhdr (v : pyval)       (* msg.uhdr_update(v)   cosebase.py:110-113 *)
| HSetPItem (k v : pyval)       (* msg.phdr[k] = v *)
| HDelPItem (k : pyval)         (* msg.phdr.pop(k, None) *)
| HSetUItem (k v : pyval)       (* msg.uhdr[k] = v *)
| HDelUItem (k : pyval).        (* msg.uhdr.pop(k, None) *)

(** One use of the setters, cosebase.py:87-122, cosemessage.py:108-138. *)
Definition hdr_step (c : core) (o : hdr_op) : core * result unit :=
  match o with
  | HSetPhdr (VDict d) => (with_phdr c d None, Ok tt)
  | HSetUhdr (VDict d) => (with_uhdr c d, Ok tt)
  | HUpdatePhdr (VDict d) => (with_phdr c (dupdate (phdr c) d) None, Ok tt)
  | HUpdateUhdr (VDict d) => (with_uhdr c (dupdate (uhdr c) d), Ok tt)
  | HSetPItem k v =>
    if hashable k then (with_phdr c (dset (phdr c) k v) (phdr_raw c), Ok tt) else (c, Err TypeError)
  | HDelPItem k =>
    if hashable k then (with_phdr c (ddel (phdr c) k) (phdr_raw c), Ok tt) else (c, Err TypeError)
  | HSetUItem k v =>
    if hashable k then (with_uhdr c (dset (uhdr c) k v), Ok tt) else (c, Err TypeError)
  | HDelUItem k =>
    if hashable k then (with_uhdr c (ddel (uhdr c) k), Ok tt) else (c, Err TypeError)
  | _ => (c, Err TypeError)
  end.

(** A history of uses of the setters, cosebase.py:87-122, cosemessage.py:108-138. *)
Definition hdr_run (c : core) (l : list hdr_op) : core :=
  fold_left (fun c o => fst (hdr_step c o)) l c.

(** [local_attrs.setter], cosebase.py:119-122; a key is a mapping too. *)
Definition set_local_attrs (c : core) (v : pyval) : core * result unit :=
  match v with
  | VDict d => (with_local c (dupdate (local c) d), Ok tt)
  | VKey _ s _ => (with_local c (dupdate (local c) s), Ok tt)
  | _ => (c, Err AttributeError)
  end.

(** [CoseBase.from_cose_obj] (cosebase.py:20-25) and [CoseMessage.from_cose_obj]
    (cosemessage.py:76-82); [pop(0)] on an exhausted list raises IndexError. The
    object is first built with the constructor's default payload, [external_aad=b'']
    and no key. Result: the message fields and the rest of the array. *)
Definition core_from_obj (allow : bool) (obj : list pyval) : result (core * list pyval) :=
  match obj with
  | p :: u :: rest =>
    c <- core_init (Args VNone u VNone (VBytes []) VNone p false allow) ;;
    match rest with
    | pl :: rest' => pl' <- check_payload pl ;; Ok (with_payload c pl', rest')
    | [] => Err IndexError
    end
  | _ => Err IndexError
  end.

End WithCrypto.
