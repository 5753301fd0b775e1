(** COSE_Sign1, COSE_Sign, COSE_Encrypt0 and COSE_Mac0: pycose/messages/signcommon.py,
    sign1message.py, signmessage.py, signer.py, enccommon.py, enc0message.py,
    maccommon.py, mac0message.py. *)
From Coq Require Import NArith ZArith Bool String.
From Coq Require Import Init.Byte List.
From Verif Require Import Bytes Value Cbor Registry Crypto Keys Algorithms Headers.
Import ListNotations.
Local Open Scope result_scope.

(** [cbor2.dumps(structure)] without a default encoder. enccommon.py:78, maccommon.py:73,
    sign1message.py:71, signer.py:69, context.py:80. *)
Definition dumps_plain (v : pyval) : result bytes := dumps cls_fullname HNone v.

(** [CoseMessage.encode], cosemessage.py:141-147; same code at sign1message.py:83-88
    and signmessage.py:82-87. *)
Definition emit (c : core) (cbor_tag : N) (tag : bool) (items : list pyval) : result bytes :=
  dumps_msg c (if tag then VTag cbor_tag (VList items) else VList items).

(** Access to a method of the algorithm class, before its arguments are evaluated.
    signcommon.py:49,62, maccommon.py:46,58, enccommon.py:50,69. *)
Definition has_sign (alg : pyval) : result unit :=
  match alg_kind alg with
  | Some (ARsa _ _) | Some (AOaep _) | Some (AEcdsa _ _) | Some AEdDSA => Ok tt
  | _ => Err AttributeError
  end.
Definition has_mac (alg : pyval) : result unit :=
  match alg_kind alg with
  | Some (AHmac _ _) | Some (ACbcMac _ _) => Ok tt
  | _ => Err AttributeError
  end.
Definition has_enc (alg : pyval) : result unit :=
  match alg_kind alg with
  | Some (AGcm _) | Some (ACcm _ _) => Ok tt
  | _ => Err AttributeError
  end.

(** ** Structures *)

(** The payload that is signed: sign1message.py:62-69, signer.py:60-67. *)
Definition sig_payload (attached : option bytes) (detached : pyval) : result pyval :=
  match detached, attached with
  | VNone, None => Err CoseException
  | VNone, Some p => Ok (VBytes p)
  | _, Some _ => Err CoseException
  | d, None => Ok d
  end.

(** [Sign1Message._create_sig_structure], sign1message.py:53-71. *)
Definition sign1_structure (c : core) (detached : pyval) : result bytes :=
  p <- base_protected c ;;
  pl <- sig_payload (payload c) detached ;;
  dumps_plain (VList [VStr (bs "Signature1"); VBytes p; VBytes (aad c); pl]).

(** [CoseSignature._create_sig_structure], signer.py:52-70. [parent] is the current
    state of the message the signer was last assigned to ([_parent], signmessage.py:69). *)
Definition signer_structure (parent : option core) (s : core) (detached : pyval) : result bytes :=
  match parent with
  | None => Err AttributeError
  | Some m =>
    bp <- phdr_encoded m ;;
    sp <- (match phdr s with [] => Ok [] | _ => p <- phdr_encoded s ;; Ok [VBytes p] end) ;;
    pl <- sig_payload (payload m) detached ;;
    dumps_plain (VList ([VStr (bs "Signature"); VBytes bp] ++ sp ++ [VBytes (aad s); pl]))
  end.

(** [_enc_structure], enccommon.py:71-79, with the class's [context]. *)
Definition enc_structure (ctx : string) (c : core) : result bytes :=
  p <- base_protected c ;;
  dumps_plain (VList [VStr (bs ctx); VBytes p; VBytes (aad c)]).

(** [_mac_structure], maccommon.py:61-73. *)
Definition mac_structure (ctx : string) (c : core) : result bytes :=
  p <- base_protected c ;;
  match payload c with
  | None => Err ValueError
  | Some pl => dumps_plain (VList [VStr (bs ctx); VBytes p; VBytes (aad c); VBytes pl])
  end.

Section WithCrypto.
Variable X : crypto.

(** ** Signing: signcommon.py:25-62 *)

(** [_key_verification], signcommon.py:25-37. *)
Definition key_verification (c : core) (alg op : pyval) : result key :=
  match ckey c with
  | None => Err CoseException
  | Some k =>
    match k_cls k with
    | KSym => Err CoseException
    | kc => _ <- key_verify k kc alg [op] ;; Ok k
    end
  end.

(** [compute_signature], signcommon.py:51-62. *)
Definition compute_signature (seed : N) (c : core) (structure : result bytes) : result bytes :=
  alg <- get_attr c Algorithm ;;
  k <- key_verification c alg SignOp ;;
  _ <- has_sign alg ;;
  data <- structure ;;
  alg_sign X seed alg k data.

(** [verify_signature], signcommon.py:39-49. *)
Definition verify_signature (c : core) (structure : result bytes) (sig : pyval) : result bool :=
  alg <- get_attr c Algorithm ;;
  k <- key_verification c alg VerifyOp ;;
  _ <- has_sign alg ;;
  data <- structure ;;
  alg_verify X alg k data sig.

(** ** COSE_Sign1 *)

(** A Sign1Message object, sign1message.py:29-51. *)
Record sign1 := Sign1 { s1_core : core; s1_sig : pyval }.

(** [Sign1Message.__init__], sign1message.py:29-40. *)
Definition sign1_init (a : args) : result sign1 :=
  c <- core_init X a ;; Ok (Sign1 c (VBytes [])).

(** [Sign1Message.from_cose_obj], sign1message.py:23-27. *)
Definition sign1_from_obj (allow : bool) (obj : list pyval) : result sign1 :=
  '(c, rest) <- core_from_obj X allow obj ;;
  match rest with s :: _ => Ok (Sign1 c s) | [] => Err IndexError end.

(** [signature.setter], sign1message.py:46-51. *)
Definition sign1_set_signature (m : sign1) (v : pyval) : sign1 * result unit :=
  match v with VBytes _ => (Sign1 (s1_core m) v, Ok tt) | _ => (m, Err TypeError) end.

(** [Sign1Message.encode], sign1message.py:73-88. *)
Definition sign1_encode (seed : N) (m : sign1) (tag sign : bool) (detached : pyval) : result bytes :=
  let c := s1_core m in
  p <- phdr_encoded c ;;
  let base := [VBytes p; VDict (uhdr c); vopt (payload c)] in
  items <- (if sign then
              s <- compute_signature seed c (sign1_structure c detached) ;;
              Ok (base ++ [VBytes s])
            else if truthy (s1_sig m) then Ok (base ++ [s1_sig m]) else Ok base) ;;
  emit c 18 tag items.

(** [verify_signature] on a Sign1 message, signcommon.py:39-49. *)
Definition sign1_verify (m : sign1) (detached : pyval) : result bool :=
  verify_signature (s1_core m) (sign1_structure (s1_core m) detached) (s1_sig m).

(** ** COSE_Sign *)

(** A signer is a message whose payload holds the signature (signer.py:24-50). *)
Record signmsg := SignMsg { sm_core : core; sm_signers : list core }.

(** [_SignMessage.__init__], signmessage.py:41-54 (external_aad=b'' and key=None). *)
Definition sign_init (a : args) (signers : list core) : result signmsg :=
  c <- core_init X (Args (a_phdr a) (a_uhdr a) (a_payload a) (VBytes []) VNone
                         (a_phdr_encoded a) (a_tstr a) (a_allow a)) ;;
  Ok (SignMsg c signers).

(** [CoseSignature.__init__], signer.py:24-35: the payload argument is the signature. *)
Definition signer_init (a : args) : result core := core_init X a.

(** [CoseSignature.from_cose_obj(r, ...)], signer.py:16-22. [r.pop(0)]: a dict pops its
    key 0 and then fails; other objects have no [pop]. *)
Definition signer_from_obj (allow : bool) (r : pyval) : result core :=
  match r with
  | VList l => '(c, _) <- core_from_obj X allow l ;; Ok c
  | VDict _ => Err KeyError
  | _ => Err AttributeError
  end.

(** [_SignMessage.from_cose_obj], signmessage.py:28-39. *)
Definition sign_from_obj (allow : bool) (obj : list pyval) : result signmsg :=
  '(c, rest) <- core_from_obj X allow obj ;;
  match rest with
  | [] => Err IndexError
  | s :: _ =>
    l <- py_iter s ;;
    signers <- mapM (signer_from_obj allow) l ;;
    Ok (SignMsg c signers)
  end.

(** [CoseSignature.encode], signer.py:72-73. *)
Definition signer_encode (seed : N) (parent : option core) (s : core) (detached : pyval)
  : result pyval :=
  p <- phdr_encoded s ;;
  sg <- compute_signature seed s (signer_structure parent s detached) ;;
  Ok (VList [VBytes p; VDict (uhdr s); VBytes sg]).

(** [[s.encode(detached_payload) for s in self.signers]], signmessage.py:79-80,
    signer.py:72-73. *)
Fixpoint signers_encode (seed : N) (parent : option core) (l : list core) (detached : pyval)
  : result (list pyval) :=
  match l with
  | [] => Ok []
  | s :: r =>
    v <- signer_encode seed parent s detached ;;
    vs <- signers_encode (N.succ seed) parent r detached ;;
    Ok (v :: vs)
  end.

(** [_SignMessage.encode], signmessage.py:74-87. *)
Definition sign_encode (seed : N) (m : signmsg) (tag : bool) (detached : pyval) : result bytes :=
  let c := sm_core m in
  p <- phdr_encoded c ;;
  let base := [VBytes p; VDict (uhdr c); vopt (payload c)] in
  items <- (match sm_signers m with
            | [] => Ok base
            | l => vs <- signers_encode seed (Some c) l detached ;; Ok (base ++ [VList vs])
            end) ;;
  emit c 98 tag items.

(** [signer.verify_signature] for a signer of [m], signcommon.py:39-49, signer.py:41-43. *)
Definition signer_verify (parent : option core) (s : core) (detached : pyval) : result bool :=
  verify_signature s (signer_structure parent s detached) (vopt (payload s)).

(** ** COSE_Encrypt0 *)

(** [_get_nonce], enccommon.py:81-92. A stored base IV that is not [bytes] (only item
    assignment can put one there) raises TypeError here. *)
Definition get_nonce (c : core) : result pyval :=
  iv <- get_attr c IV ;;
  if is_none iv then
    match ckey c with
    | None => Err AttributeError
    | Some k =>
      base <- prop_get k PBaseIV ;;
      if veqb base (VBytes []) then Err CoseException
      else
        piv <- get_attr c PartialIV ;;
        p <- as_bytes piv ;;
        b <- as_bytes base ;;
        Ok (VBytes (min_be (N.lxor (of_be p) (of_be b))))
    end
  else Ok iv.

(** [EncCommon.encrypt], enccommon.py:52-69. *)
Definition enc_encrypt (ctx : string) (c : core) : result bytes :=
  match ckey c with
  | None => Err CoseException
  | Some k =>
    alg <- get_attr c Algorithm ;;
    nonce <- get_nonce c ;;
    _ <- key_verify k KSym alg [EncryptOp] ;;
    _ <- has_enc alg ;;
    ad <- enc_structure ctx c ;;
    alg_encrypt X alg k nonce (vopt (payload c)) ad
  end.

(** [EncCommon.decrypt], enccommon.py:34-50. *)
Definition enc_decrypt (ctx : string) (c : core) : result bytes :=
  alg <- get_attr c Algorithm ;;
  nonce <- get_nonce c ;;
  match ckey c with
  | None => Err CoseException
  | Some k =>
    _ <- key_verify k KSym alg [DecryptOp] ;;
    _ <- has_enc alg ;;
    ad <- enc_structure ctx c ;;
    alg_decrypt X alg k nonce (vopt (payload c)) ad
  end.

(** [Enc0Message], enc0message.py:26-69: an Enc0 message is its core. *)
Definition enc0_init (a : args) : result core := core_init X a.

(** [Enc0Message.from_cose_obj], enc0message.py:26-28, cosemessage.py:76-82. *)
Definition enc0_from_obj (allow : bool) (obj : list pyval) : result core :=
  '(c, _) <- core_from_obj X allow obj ;; Ok c.

(** [Enc0Message.encode], enc0message.py:53-69. *)
Definition enc0_encode (c : core) (tag encrypt : bool) : result bytes :=
  p <- phdr_encoded c ;;
  body <- (if encrypt then e <- enc_encrypt "Encrypt0" c ;; Ok (VBytes e)
           else Ok (vopt (payload c))) ;;
  emit c 16 tag [VBytes p; VDict (uhdr c); body].

(** [EncCommon.decrypt] on an Enc0Message, enccommon.py:34-50. *)
Definition enc0_decrypt (c : core) : result bytes := enc_decrypt "Encrypt0" c.

(** ** COSE_Mac0 *)

(** A Mac0Message object, mac0message.py:31-40, maccommon.py:23-34. *)
Record macmsg0 := Mac0 { m0_core : core; m0_tag : pyval }.

(** [MacCommon.__init__], maccommon.py:23-34. *)
Definition mac0_init (a : args) : result macmsg0 :=
  c <- core_init X a ;; Ok (Mac0 c (VBytes [])).

(** [MacCommon.compute_tag], maccommon.py:48-59: the tag (stored by the caller). *)
Definition mac_compute (ctx : string) (c : core) : result bytes :=
  alg <- get_attr c Algorithm ;;
  match ckey c with
  | None => Err CoseException
  | Some k =>
    _ <- key_verify k KSym alg [MacCreateOp] ;;
    _ <- has_mac alg ;;
    data <- mac_structure ctx c ;;
    alg_compute_tag X alg k data
  end.

(** [MacCommon.verify_tag], maccommon.py:36-46. *)
Definition mac_verify (ctx : string) (c : core) (tag : pyval) : result bool :=
  alg <- get_attr c Algorithm ;;
  match ckey c with
  | None => Err CoseException
  | Some k =>
    _ <- key_verify k KSym alg [MacVerifyOp] ;;
    _ <- has_mac alg ;;
    data <- mac_structure ctx c ;;
    alg_verify_tag X alg k tag data
  end.

(** [Mac0Message.from_cose_obj], mac0message.py:24-29. *)
Definition mac0_from_obj (allow : bool) (obj : list pyval) : result macmsg0 :=
  '(c, rest) <- core_from_obj X allow obj ;;
  match rest with t :: _ => Ok (Mac0 c t) | [] => Err IndexError end.

(** [MacCommon.compute_tag], maccommon.py:48-59. *)
Definition mac0_compute_tag (m : macmsg0) : macmsg0 * result bytes :=
  match mac_compute "MAC0" (m0_core m) with
  | Ok t => (Mac0 (m0_core m) (VBytes t), Ok t)
  | Err e => (m, Err e)
  end.

(** [MacCommon.verify_tag], maccommon.py:36-46. *)
Definition mac0_verify_tag (m : macmsg0) : result bool :=
  mac_verify "MAC0" (m0_core m) (m0_tag m).

(** [Mac0Message.encode], mac0message.py:42-51. *)
Definition mac0_encode (m : macmsg0) (tag mac : bool) : macmsg0 * result bytes :=
  let c := m0_core m in
  match phdr_encoded c with
  | Err e => (m, Err e)
  | Ok p =>
    let base := [VBytes p; VDict (uhdr c); vopt (payload c)] in
    if mac then
      match mac0_compute_tag m with
      | (m', Ok t) => (m', emit c 17 tag (base ++ [VBytes t]))
      | (m', Err e) => (m', Err e)
      end
    else (m, emit c 17 tag base)
  end.

End WithCrypto.
