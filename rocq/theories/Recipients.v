(** Recipients, the KDF context, COSE_Encrypt and COSE_Mac: pycose/messages/recipient.py,
    context.py, encmessage.py, macmessage.py. *)
From Coq Require Import NArith ZArith Bool String.
From Coq Require Import Init.Byte List.
From Verif Require Import Bytes Value Cbor Registry Crypto Keys Algorithms Headers Messages.
Import ListNotations.
Local Open Scope result_scope.

(** The four concrete recipient classes (recipient.py:189,249,374,468). *)
Inductive rclass := RDirect | RKeyWrap | RAgree | RAgreeKW.

(** A recipient object: an identity (Python's [is]), its class, the message fields,
    [_context], and its own recipients. Simplification: objects are values, so one
    recipient object placed at two positions of a tree is represented twice.
    recipient.py:106-148. *)
Inductive rcpt := Rcpt (id : N) (rc : rclass) (c : core) (ctx : pyval) (subs : list rcpt).

(** Identity of the object, for [target is r] (recipient.py:83). *)
Definition r_id (r : rcpt) : N := match r with Rcpt i _ _ _ _ => i end.
(** [r.__class__], recipient.py:96. *)
Definition r_class (r : rcpt) : rclass := match r with Rcpt _ rc _ _ _ => rc end.
(** The attributes set by recipient.py:125. *)
Definition r_core (r : rcpt) : core := match r with Rcpt _ _ c _ _ => c end.
(** [_context], recipient.py:127,208-214. *)
Definition r_ctx (r : rcpt) : pyval := match r with Rcpt _ _ _ x _ => x end.
(** [_recipients], recipient.py:128-137. *)
Definition r_subs (r : rcpt) : list rcpt := match r with Rcpt _ _ _ _ s => s end.
(** Assignment to an attribute of the recipient, e.g. encmessage.py:92. *)
Definition r_with (r : rcpt) (c : core) : rcpt :=
  match r with Rcpt i rc _ x s => Rcpt i rc c x s end.
(** Assignment to [_recipients], recipient.py:139-148. *)
Definition r_with_subs (r : rcpt) (s : list rcpt) : rcpt :=
  match r with Rcpt i rc c x _ => Rcpt i rc c x s end.

(** Identity of recipient classes, for the set lookups of recipient.py:98,101 and
    encmessage.py:80-88. *)
Definition rclass_eqb (a b : rclass) : bool :=
  match a, b with
  | RDirect, RDirect | RKeyWrap, RKeyWrap | RAgree, RAgree | RAgreeKW, RAgreeKW => true
  | _, _ => false
  end.

(** An algorithm class by its identifier (algorithms.py:348-1428). *)
Definition algc (z : Z) : pyval := VClass (Cls FAlg z).

(** [alg in {A, B, ...}] for a set of algorithm classes: needs a hashable [alg].
    recipient.py:257,337,342,355,359,382,413,424,441,445,537,553,555. *)
Definition alg_in (alg : pyval) (ids : list Z) : result bool :=
  if hashable alg then Ok (existsb (fun z => veqb alg (algc z)) ids) else Err TypeError.

(** A128KW, A192KW, A256KW: recipient.py:257,337,355. *)
Definition aes_kw : list Z := [-3; -4; -5]%Z.
(** RsaesOaepSha512, RsaesOaepSha256, RsaesOaepSha1: recipient.py:342,359. *)
Definition oaep : list Z := [-40; -41; -42]%Z.
(** EcdhEsHKDF256, EcdhEsHKDF512: recipient.py:382,413,424,441. *)
Definition es_hkdf : list Z := [-25; -26]%Z.
(** EcdhSsHKDF256, EcdhSsHKDF512: recipient.py:441,445. *)
Definition ss_hkdf : list Z := [-27; -28]%Z.
(** EcdhEsA128KW, EcdhEsA192KW, EcdhEsA256KW: recipient.py:537,553. *)
Definition es_kw : list Z := [-29; -30; -31]%Z.
(** EcdhSsA128KW, EcdhSsA192KW, EcdhSsA256KW: recipient.py:555. *)
Definition ss_kw : list Z := [-32; -33; -34]%Z.

(** [_RCPT_CLASSES], filled by [record_rc] (recipient.py:188,247-248,373,467). *)
Definition rcpt_classes : list (Z * rclass) :=
  [(-6, RDirect); (-10, RDirect); (-13, RDirect);
   (-3, RKeyWrap); (-4, RKeyWrap); (-5, RKeyWrap);
   (-42, RKeyWrap); (-41, RKeyWrap); (-40, RKeyWrap);
   (-25, RAgree); (-26, RAgree); (-27, RAgree); (-28, RAgree);
   (-29, RAgreeKW); (-30, RAgreeKW); (-31, RAgreeKW);
   (-32, RAgreeKW); (-33, RAgreeKW); (-34, RAgreeKW)]%Z.

(** [cls._RCPT_CLASSES[alg]], recipient.py:72-74. *)
Definition rcpt_class_of (alg : pyval) : result rclass :=
  if negb (hashable alg) then Err TypeError
  else
    match find (fun e => veqb alg (algc (fst e))) rcpt_classes with
    | Some e => Ok (snd e)
    | None => Err KeyError
    end.

(** [v[i]] for the element of a received recipients array. A character of a [str] is
    represented by the whole string: the caller rejects any text. recipient.py:64-65,69. *)
Definition py_index (v : pyval) (i : nat) : result pyval :=
  match v with
  | VList l | VTuple l => match nth_error l i with Some x => Ok x | None => Err IndexError end
  | VBytes b =>
    match nth_error b i with Some x => Ok (VInt (Z.of_N (b2N x))) | None => Err IndexError end
  | VStr u => if Nat.ltb i (str_len u) then Ok (VStr u) else Err IndexError
  | VDict d => match dget d (VInt (Z.of_nat i)) with Some x => Ok x | None => Err KeyError end
  | _ => Err TypeError
  end.

(** ** KDF context: context.py, recipient.py:150-171 *)

Record kdfctx := Kdf {
  kc_alg : pyval;
  kc_u : list pyval;            (* PartyInfo.encode(), context.py:18-21 *)
  kc_v : list pyval;
  kc_len : nat;                 (* key_data_length; the check at 45-47 is never called *)
  kc_protected : dict;
  kc_pub_other : pyval;
  kc_priv : pyval }.

(** [get_kdf_context], recipient.py:150-171. *)
Definition get_kdf_context (c : core) (alg : pyval) : result kdfctx :=
  ui <- get_attr c PartyUID ;; un <- get_attr c PartyUNonce ;; uo <- get_attr c PartyUOther ;;
  vi <- get_attr c PartyVID ;; vn <- get_attr c PartyVNonce ;; vo <- get_attr c PartyVOther ;;
  len <- get_key_length alg ;;
  Ok (Kdf alg [ui; un; uo] [vi; vn; vo] len (phdr c)
          (dget_or (local c) SuppPubOther (VBytes []))
          (dget_or (local c) SuppPrivOther (VBytes []))).

(** [CoseKDFContext.encode] and [SuppPubInfo.encode], context.py:49-80. *)
Definition kdf_encode (k : kdfctx) : result bytes :=
  match identifier_of (kc_alg k) with
  | None => Err AttributeError
  | Some i =>
    prot <- dumps cls_fullname HIdent (VDict (kc_protected k)) ;;
    let opt v := if veqb v (VBytes []) then [] else [v] in
    dumps_plain (VList ([VInt i; VList (kc_u k); VList (kc_v k);
                         VList ([VInt (Z.of_nat (kc_len k) * 8); VBytes prot] ++ opt (kc_pub_other k))]
                        ++ opt (kc_priv k)))
  end.

(** ** Recipient lists *)

(** [recipients.setter], recipient.py:139-148 and encmessage.py:129-138: the argument is
    None, or a list whose elements are recipients ([None] here: some other object). *)
Fixpoint append_recipients (cur : list rcpt) (l : list (option rcpt)) : list rcpt * result unit :=
  match l with
  | [] => (cur, Ok tt)
  | Some r :: l' => append_recipients (cur ++ [r]) l'
  | None :: _ => (cur, Err TypeError)
  end.

(** [recipients.setter], recipient.py:139-148, encmessage.py:129-138. *)
Definition set_recipients (cur : list rcpt) (arg : option (list (option rcpt)))
  : list rcpt * result unit :=
  match arg with
  | None => ([], Ok tt)
  | Some l => append_recipients cur l
  end.

(** [has_recipient], recipient.py:78-89. *)
Fixpoint has_in (t : N) (r : rcpt) : bool :=
  match r with
  | Rcpt _ _ _ _ subs =>
    (fix go (l : list rcpt) (found : bool) : bool :=
       match l with
       | [] => found
       | x :: l' =>
         if N.eqb t (r_id x) then true
         else go l' (match r_subs x with [] => found | _ => has_in t x end)
       end) subs false
  end.

(** [has_recipient], recipient.py:78-89. *)
Definition has_recipient (t : N) (rs : list rcpt) : bool :=
  (fix go (l : list rcpt) (found : bool) : bool :=
     match l with
     | [] => found
     | x :: l' =>
       if N.eqb t (r_id x) then true
       else go l' (match r_subs x with [] => found | _ => has_in t x end)
     end) rs false.

(** [C in r_types], recipient.py:93-96, encmessage.py:80-88,113-117. *)
Definition has_class (rc : rclass) (rs : list rcpt) : bool :=
  existsb (fun r => rclass_eqb rc (r_class r)) rs.

(** [len(r_types)]. recipient.py:93-98. *)
Definition n_classes (rs : list rcpt) : nat :=
  length (filter (fun rc => has_class rc rs) [RDirect; RKeyWrap; RAgree; RAgreeKW]).

(** [verify_recipients], recipient.py:91-104. *)
Definition verify_recipients (rs : list rcpt) : result unit :=
  if has_class RDirect rs && Nat.ltb 1 (n_classes rs) then Err CoseException
  else if has_class RAgree rs && Nat.ltb 1 (length rs) then Err CoseException
  else Ok tt.

Section WithCrypto.
Variable X : crypto.

(** ** Decoding recipients *)

(** The class specific [from_cose_obj]: recipient.py:191-206, 250-267, 376-388, 470-487.
    [msg.recipients] is the list of the freshly built object, which is empty, so the
    nested recipients in the array are never looked at. *)
Definition rcpt_from_obj (allow : bool) (ctx : pyval) (id : N) (rc : rclass) (r : pyval)
  : result rcpt :=
  match r with
  | VList l =>
    '(c, _) <- core_from_obj X allow l ;;
    let empty := match payload c with Some [] => true | _ => false end in
    match rc with
    | RDirect =>
      if negb empty then Err CoseMalformedMessage
      else
        alg <- get_attr c Algorithm ;;
        if veqb alg (algc (-6)) && negb (Nat.eqb (length (phdr c)) 0) then Err CoseMalformedMessage
        else Ok (Rcpt id rc c ctx [])
    | RKeyWrap =>
      alg <- get_attr c Algorithm ;;
      kw <- alg_in alg aes_kw ;;
      if kw && negb (Nat.eqb (length (phdr c)) 0) then Err CoseMalformedMessage
      else if empty then Err CoseMalformedMessage
      else Ok (Rcpt id rc c ctx [])
    | RAgree =>
      alg <- get_attr c Algorithm ;;
      es <- alg_in alg es_hkdf ;;
      missing <- (if es : bool then e <- get_attr c EphemeralKey ;; Ok (is_none e) else Ok false) ;;
      if missing : bool then Err CoseMalformedMessage
      else Ok (Rcpt id rc c ctx [])
    | RAgreeKW =>
      if empty then Err CoseMalformedMessage else Ok (Rcpt id rc c ctx [])
    end
  | VDict _ => Err KeyError
  | _ => Err AttributeError
  end.

(** [create_recipient], recipient.py:62-76. *)
Definition create_recipient (allow : bool) (ctx : pyval) (id : N) (r : pyval) : result rcpt :=
  r0 <- py_index r 0 ;;
  p_alg <- (if veqb r0 (VBytes []) then Ok VNone
            else h <- loads r0 ;; d <- parse_header X allow h ;; Ok (dget_or d Algorithm VNone)) ;;
  r1 <- py_index r 1 ;;
  d <- parse_header X allow r1 ;;
  let u_alg := dget_or d Algorithm VNone in
  let alg := if is_none p_alg then u_alg else p_alg in
  if is_none alg then Err CoseException
  else rc <- rcpt_class_of alg ;; rcpt_from_obj allow ctx id rc r.

(** The comprehension over the recipients array; objects are numbered in order.
    encmessage.py:30-31, macmessage.py:39-40. *)
Fixpoint create_all (allow : bool) (ctx : pyval) (id : N) (l : list pyval) : result (list rcpt) :=
  match l with
  | [] => Ok []
  | v :: l' =>
    r <- create_recipient allow ctx id v ;;
    rs <- create_all allow ctx (N.succ id) l' ;;
    Ok (r :: rs)
  end.

(** [CoseRecipient.__init__], recipient.py:106-129. *)
Definition rcpt_init (id : N) (rc : rclass) (a : args) (rs : option (list (option rcpt)))
  : result rcpt :=
  c <- core_init X a ;;
  match set_recipients [] rs with
  | (l, Ok _) => Ok (Rcpt id rc c (VStr []) l)
  | (_, Err e) => Err e
  end.

(** ** Key derivation *)

(** [peer_key.crv] etc.: only COSE keys have the attribute. recipient.py:174,436,455,519. *)
Definition peer (v : pyval) : result key :=
  match as_key v with Some k => Ok k | None => Err AttributeError end.

(** [_compute_kek] of the key agreement classes, recipient.py:434-436, 517-520. *)
Definition agree_kek (c : core) (target peer_key : pyval) (local_key : option key) (alg : pyval)
  : result bytes :=
  _ <- kex_hash alg ;;
  pk <- peer peer_key ;;
  crv <- prop_get pk PCrv ;;
  k <- get_kdf_context c target ;;
  lk <- (match local_key with Some lk => Ok lk | None => Err AttributeError end) ;;
  derive_kek X alg crv lk pk (kc_len k) (kdf_encode k).

(** [_setup_ephemeral_key], recipient.py:173-185. *)
Definition setup_ephemeral (n : N) (c : core) (peer_key : pyval) : core * result unit :=
  match (pk <- peer peer_key ;; crv <- prop_get pk PCrv ;; ec2_generate X n crv VNone) with
  | Err e => (c, Err e)
  | Ok k =>
    let c1 := with_key c (Some k) in
    match get_attr c1 EphemeralKey with
    | Err e => (c1, Err e)
    | Ok v =>
      if negb (is_none v) then (c1, Err CoseException)
      else if dmem (k_store k) (VClass EC2KpD) then
        (with_uhdr c1 (dset (uhdr c1) EphemeralKey (VDict (ddel (k_store k) (VClass EC2KpD)))), Ok tt)
      else (c1, Err KeyError)
    end
  end.

(** A symmetric key with an algorithm and operations, e.g. recipient.py:339-340. *)
Definition sym_with (k alg : pyval) (ops : list pyval) : result key :=
  sym_init k (VDict [(VClass KpAlg, alg); (VClass KpKeyOps, VList ops)]) true.

(** [KeyWrap._compute_kek] without a key, recipient.py:288-311, for 'encrypt'. *)
Definition kw_kek_encrypt (c : core) (subs : list rcpt) : result pyval :=
  match ckey c with
  | Some k => prop_get k PK
  | None =>
    match subs with
    | [] => Err CoseException
    | _ =>
      _ <- verify_recipients subs ;;
      if has_class RAgree subs then Err TypeError         (* compute_cek lacks [ops] *)
      else if has_class RKeyWrap subs || has_class RAgreeKW subs then
        _ <- get_attr c Algorithm ;; Err TypeError        (* os.urandom(a class) *)
      else Err CoseException
    end
  end.

(** [KeyWrap.encrypt], recipient.py:328-348. *)
Definition kw_encrypt (n : N) (c : core) (subs : list rcpt) : result bytes :=
  alg <- get_attr c Algorithm ;;
  if negb (Nat.eqb (length (phdr c)) 0) then Err CoseException
  else if is_none alg then Err CoseException
  else
    kw <- alg_in alg aes_kw ;;
    if kw : bool then
      kb <- kw_kek_encrypt c subs ;;
      kek <- sym_with kb alg [WrapOp; EncryptOp] ;;
      _ <- key_verify kek KSym alg [WrapOp; EncryptOp] ;;
      alg_key_wrap X n alg kek (vopt (payload c))
    else
      oa <- alg_in alg oaep ;;
      if oa : bool then
        match ckey c with
        | None => Err AttributeError
        | Some kek =>
          _ <- key_verify kek KRSA alg [WrapOp; EncryptOp] ;;
          alg_key_wrap X n alg kek (vopt (payload c))
        end
      else Err AttributeError.                            (* self.__name__ *)

(** [KeyAgreementWithKeyWrap.decrypt], recipient.py:549-565. *)
Definition kakw_decrypt (c : core) : result bytes :=
  alg <- get_attr c Algorithm ;;
  es <- alg_in alg es_kw ;;
  pk <- (if es : bool then get_attr c EphemeralKey
         else ss <- alg_in alg ss_kw ;;
              if ss : bool then get_attr c StaticKey else Err AttributeError) ;;
  wf <- get_key_wrap_func alg ;;
  kb <- agree_kek c wf pk (ckey c) alg ;;
  kek <- sym_with (VBytes kb) alg [UnwrapOp; DecryptOp] ;;
  _ <- key_verify kek KSym alg [UnwrapOp; DecryptOp] ;;
  alg_key_unwrap X wf kek (vopt (payload c)).

(** [KeyWrap.decrypt], recipient.py:350-365, with [_compute_kek(.., 'decrypt')]
    (288-316); [decrypt] of the other classes is what the nested call can reach: the
    direct classes have no such method. The bytes a nested recipient returns are then
    refused by the key setter (cosemessage.py:118-126). *)
Fixpoint rcpt_decrypt (r : rcpt) : result bytes :=
  match r with
  | Rcpt _ rc c _ subs =>
    match rc with
    | RDirect | RAgree => Err AttributeError
    | RAgreeKW => kakw_decrypt c
    | RKeyWrap =>
      alg <- get_attr c Algorithm ;;
      kw <- alg_in alg aes_kw ;;
      if kw : bool then
        kb <- (match ckey c with
               | Some k => prop_get k PK
               | None =>
                 match subs with
                 | [] => Err CoseException
                 | r0 :: _ =>
                   _ <- verify_recipients subs ;;
                   if has_class RAgree subs || has_class RKeyWrap subs || has_class RAgreeKW subs
                   then _ <- get_attr c Algorithm ;; _ <- rcpt_decrypt r0 ;; Err CoseInvalidKey
                   else Err CoseException
                 end
               end) ;;
        kek <- sym_with kb alg [DecryptOp; UnwrapOp] ;;
        _ <- key_verify kek KSym alg [UnwrapOp; DecryptOp] ;;
        alg_key_unwrap X alg kek (vopt (payload c))
      else
        oa <- alg_in alg oaep ;;
        if oa : bool then
          match ckey c with
          | None => Err AttributeError
          | Some kek =>
            _ <- key_verify kek KRSA alg [UnwrapOp; DecryptOp] ;;
            alg_key_unwrap X alg kek (vopt (payload c))
          end
        else Err CoseException
    end
  end.

(** [KeyAgreementWithKeyWrap.encrypt], recipient.py:522-547. *)
Definition kakw_encrypt (n : N) (c : core) : core * result bytes :=
  let pk := dget_or (local c) StaticKey VNone in
  if is_none pk then (c, Err CoseException)
  else
    match get_attr c Algorithm with
    | Err e => (c, Err e)
    | Ok alg =>
      if is_none alg then (c, Err CoseException)
      else
        let '(c1, r) :=
          match ckey c with
          | Some _ => (c, Ok tt)
          | None =>
            match alg_in alg es_kw with
            | Err e => (c, Err e)
            | Ok true => setup_ephemeral n c pk
            | Ok false => (c, Err CoseException)
            end
          end in
        (c1,
         _ <- r ;;
         alg' <- get_attr c1 Algorithm ;;
         wf <- get_key_wrap_func alg' ;;
         kb <- agree_kek c1 wf pk (ckey c1) alg ;;
         kek <- sym_with (VBytes kb) alg [DeriveKeyOp] ;;
         alg_key_wrap X n wf kek (vopt (payload c1)))
    end.

(** [r.encrypt(target_alg)] in the loops of encmessage.py:90-95, macmessage.py:91-96. *)
Definition rcpt_encrypt (n : N) (r : rcpt) : rcpt * result bytes :=
  match r with
  | Rcpt _ rc c _ subs =>
    match rc with
    | RDirect | RAgree => (r, Err AttributeError)
    | RKeyWrap => (r, kw_encrypt n c subs)
    | RAgreeKW => let '(c', x) := kakw_encrypt n c in (r_with r c', x)
    end
  end.

(** [compute_cek(target_alg, ops)]: recipient.py:232 (takes no [ops]), 318-326, 438-459,
    497-505. [dec] is [ops == "decrypt"]. *)
Definition agree_compute_cek (c : core) (target : pyval) (dec : bool) : result key :=
  alg <- get_attr c Algorithm ;;
  known <- alg_in alg (ss_hkdf ++ es_hkdf) ;;
  if negb known then Err AttributeError                   (* self.__name__ *)
  else
    pk <- (if negb dec then Ok (dget_or (local c) StaticKey VNone)
           else
             ss <- alg_in alg ss_hkdf ;;
             if ss : bool then get_attr c StaticKey else get_attr c EphemeralKey) ;;
    if is_none pk then Err CoseException
    else
      p <- peer pk ;;
      _ <- key_verify p KEC2 alg [DeriveKeyOp; DeriveBitsOp] ;;
      lk <- (match ckey c with Some k => Ok k | None => Err AttributeError end) ;;
      _ <- key_verify lk KEC2 alg [DeriveKeyOp; DeriveBitsOp] ;;
      kb <- agree_kek c target pk (ckey c) alg ;;
      sym_init (VBytes kb) (VDict [(VClass KpAlg, target)]) true.

(** [compute_cek(target_alg, ops)], recipient.py:232, 318-326, 438-459, 497-505. *)
Definition compute_cek (r : rcpt) (target : pyval) (dec : bool) : result (option key) :=
  match r_class r with
  | RDirect => Err TypeError
  | RAgree => k <- agree_compute_cek (r_core r) target dec ;; Ok (Some k)
  | _ =>
    if dec then
      b <- rcpt_decrypt r ;; k <- sym_with (VBytes b) target [DecryptOp] ;; Ok (Some k)
    else
      match payload (r_core r) with
      | Some [] => Ok None
      | p => k <- sym_with (vopt p) target [EncryptOp] ;; Ok (Some k)
      end
  end.

(** ** Encoding recipients

    [encode]: recipient.py:216-230, 277-284, 398-432, 507-515. The entropy position and
    the recipient's new state are returned. The unprotected header is put into the list by
    reference, so a generated ephemeral key is part of it. *)
Fixpoint rcpt_encode (n : N) (r : rcpt) {struct r} : (N * rcpt) * result pyval :=
  match r with
  | Rcpt id rc c ctx subs =>
    let encode_subs :=
      fix go (n : N) (l : list rcpt) : (N * list rcpt) * result (list pyval) :=
        match l with
        | [] => ((n, []), Ok [])
        | x :: l' =>
          match rcpt_encode n x with
          | ((n1, x'), Err e) => ((n1, x' :: l'), Err e)
          | ((n1, x'), Ok v) =>
            match go n1 l' with
            | ((n2, l''), Err e) => ((n2, x' :: l''), Err e)
            | ((n2, l''), Ok vs) => ((n2, x' :: l''), Ok (v :: vs))
            end
          end
        end in
    let finish (n : N) (c : core) (items : list pyval) : (N * rcpt) * result pyval :=
      match subs with
      | [] => ((n, Rcpt id rc c ctx subs), Ok (VList items))
      | _ =>
        match encode_subs n subs with
        | ((n', s'), Err e) => ((n', Rcpt id rc c ctx s'), Err e)
        | ((n', s'), Ok vs) => ((n', Rcpt id rc c ctx s'), Ok (VList (items ++ [VList vs])))
        end
      end in
    match rc with
    | RDirect =>
      ((n, r),
       alg <- get_attr c Algorithm ;;
       if veqb alg (algc (-6)) && negb (Nat.eqb (length (phdr c)) 0) then Err CoseException
       else if is_none alg then Err CoseException
       else if negb (Nat.eqb (length subs) 0) then Err CoseException
       else p <- phdr_encoded c ;; Ok (VList [VBytes p; VDict (uhdr c); VBytes []]))
    | RKeyWrap =>
      match (p <- phdr_encoded c ;; w <- kw_encrypt n c subs ;; Ok (p, w)) with
      | Err e => ((N.succ n, r), Err e)
      | Ok (p, w) => finish (N.succ n) c [VBytes p; VDict (uhdr c); VBytes w]
      end
    | RAgree =>
      match (alg <- get_attr c Algorithm ;;
             if is_none alg then Err CoseMalformedMessage
             else
               let pk := dget_or (local c) StaticKey VNone in
               if is_none pk then Err CoseException else Ok (alg, pk)) with
      | Err e => ((n, r), Err e)
      | Ok (alg, pk) =>
        let '(c1, res) :=
          match ckey c with
          | Some _ => (c, Ok tt)
          | None =>
            match alg_in alg es_hkdf with
            | Err e => (c, Err e)
            | Ok true => setup_ephemeral n c pk
            | Ok false => (c, Err CoseException)
            end
          end in
        match (_ <- res ;;
               if Nat.ltb 1 (length subs) then Err CoseMalformedMessage
               else
                 e <- get_attr c1 EphemeralKey ;;
                 es <- (if is_none e then alg_in alg es_hkdf else Ok false) ;;
                 if es : bool then Err CoseMalformedMessage else phdr_encoded c1) with
        | Err e => ((N.succ n, Rcpt id rc c1 ctx subs), Err e)
        | Ok p => finish (N.succ n) c1 [VBytes p; VDict (uhdr c1); VBytes []]
        end
      end
    | RAgreeKW =>
      match (p <- phdr_encoded c ;; alg <- get_attr c Algorithm ;;
             _ <- get_key_wrap_func alg ;; Ok p) with
      | Err e => ((n, r), Err e)
      | Ok p =>
        match kakw_encrypt n c with
        | (c1, Err e) => ((N.succ n, Rcpt id rc c1 ctx subs), Err e)
        | (c1, Ok w) => finish (N.succ n) c1 [VBytes p; VDict (uhdr c1); VBytes w]
        end
      end
    end
  end.

(** The comprehension [[r.encode(target_alg=...) for r in self.recipients]].
    encmessage.py:70, macmessage.py:70. *)
Fixpoint rcpts_encode (n : N) (l : list rcpt) : (N * list rcpt) * result (list pyval) :=
  match l with
  | [] => ((n, []), Ok [])
  | x :: l' =>
    match rcpt_encode n x with
    | ((n1, x'), Err e) => ((n1, x' :: l'), Err e)
    | ((n1, x'), Ok v) =>
      match rcpts_encode n1 l' with
      | ((n2, l''), Err e) => ((n2, x' :: l''), Err e)
      | ((n2, l''), Ok vs) => ((n2, x' :: l''), Ok (v :: vs))
      end
    end
  end.

(** ** COSE_Encrypt *)

(** An EncMessage object, encmessage.py:36-58. *)
Record encmsg := EncMsg { e_core : core; e_rcpts : list rcpt }.

(** [EncMessage.__init__], encmessage.py:36-58. *)
Definition enc_init (a : args) (rs : option (list (option rcpt))) : result encmsg :=
  c <- core_init X a ;;
  match set_recipients [] rs with
  | (l, Ok _) => Ok (EncMsg c l)
  | (_, Err e) => Err e
  end.

(** [EncMessage.recipients] setter, encmessage.py:129-138. *)
Definition enc_set_recipients (m : encmsg) (arg : option (list (option rcpt))) : encmsg * result unit :=
  let '(l, x) := set_recipients (e_rcpts m) arg in (EncMsg (e_core m) l, x).

(** The [try]/[except (IndexError, ValueError)] around the recipients array,
    encmessage.py:29-33, macmessage.py:38-42. [None]: the exception was swallowed. *)
Definition recipients_from (allow : bool) (ctx : string) (rest : list pyval)
  : result (option (list rcpt)) :=
  match (match rest with
         | [] => Err IndexError
         | v :: _ => l <- py_iter v ;; create_all allow (VStr (bs ctx)) 0 l
         end) with
  | Ok rs => Ok (Some rs)
  | Err e => if is_value_error e || match e with IndexError => true | _ => false end
             then Ok None else Err e
  end.

(** [EncMessage.from_cose_obj], encmessage.py:25-34. *)
Definition enc_from_obj (allow : bool) (obj : list pyval) : result encmsg :=
  '(c, rest) <- core_from_obj X allow obj ;;
  o <- recipients_from allow "Enc_Recipient" rest ;;
  Ok (EncMsg c (match o with Some rs => rs | None => [] end)).

(** The loop at encmessage.py:90-95 and macmessage.py:91-96: [kb] is [key_bytes]. *)
Fixpoint cek_loop (n : N) (kb : pyval) (l : list rcpt) : (N * list rcpt) * result pyval :=
  match l with
  | [] => ((n, []), Ok kb)
  | r :: l' =>
    let c := r_core r in
    let '(r1, kb1) :=
      match payload c with
      | Some [] => (r_with r (with_payload c (match kb with VBytes b => Some b | _ => None end)), kb)
      | p => (r, vopt p)
      end in
    match rcpt_encrypt n r1 with
    | (r2, Err e) => ((N.succ n, r2 :: l'), Err e)
    | (r2, Ok _) =>
      match cek_loop (N.succ n) kb1 l' with
      | ((n', l''), x) => ((n', r2 :: l''), x)
      end
    end
  end.

(** [EncMessage.encrypt], encmessage.py:75-102. *)
Definition encm_encrypt (n : N) (m : encmsg) : (N * encmsg) * result bytes :=
  let c := e_core m in
  let rs := e_rcpts m in
  match (alg <- get_attr c Algorithm ;; _ <- verify_recipients rs ;; Ok alg) with
  | Err e => ((n, m), Err e)
  | Ok target =>
    if has_class RDirect rs then ((n, m), enc_encrypt X "Encrypt" c)
    else if has_class RAgree rs then
      match rs with
      | [] => ((n, m), Err IndexError)
      | r :: _ =>
        match compute_cek r target false with
        | Err e => ((n, m), Err e)
        | Ok k => let c' := with_key c k in ((n, EncMsg c' rs), enc_encrypt X "Encrypt" c')
        end
      end
    else if has_class RKeyWrap rs || has_class RAgreeKW rs then
      match get_key_length target with
      | Err e => ((n, m), Err e)
      | Ok len =>
        match cek_loop (N.succ n) (VBytes (x_urandom X n len)) rs with
        | ((n', rs'), Err e) => ((n', EncMsg c rs'), Err e)
        | ((n', rs'), Ok kb) =>
          match sym_with kb target [EncryptOp] with
          | Err e => ((n', EncMsg c rs'), Err e)
          | Ok k =>
            let c' := with_key c (Some k) in
            ((n', EncMsg c' rs'), enc_encrypt X "Encrypt" c')
          end
        end
      end
    else ((n, m), Err CoseException)
  end.

(** [EncMessage.encode], encmessage.py:60-73. *)
Definition encm_encode (n : N) (m : encmsg) (tag encrypt : bool) : (N * encmsg) * result bytes :=
  match phdr_encoded (e_core m) with
  | Err e => ((n, m), Err e)
  | Ok p =>
    let '((n1, m1), body) :=
      if encrypt then
        let '(s, x) := encm_encrypt n m in (s, b <- x ;; Ok (VBytes b))
      else ((n, m), Ok (vopt (payload (e_core m)))) in
    match body with
    | Err e => ((n1, m1), Err e)
    | Ok b =>
      let c := e_core m1 in
      let base := [VBytes p; VDict (uhdr c); b] in
      match e_rcpts m1 with
      | [] => ((n1, m1), emit c 96 tag base)
      | rs =>
        match get_attr c Algorithm with
        | Err e => ((n1, m1), Err e)
        | Ok _ =>
          match rcpts_encode n1 rs with
          | ((n2, rs'), Err e) => ((n2, EncMsg c rs'), Err e)
          | ((n2, rs'), Ok vs) => ((n2, EncMsg c rs'), emit c 96 tag (base ++ [VList vs]))
          end
        end
      end
    end
  end.

(** [EncMessage.decrypt(recipient)], encmessage.py:104-123. Simplified: building the
    message of "Cannot find recipient" prints the recipient, which itself raises for a
    recipient without payload; here the exception is always CoseException. *)
Definition encm_decrypt (m : encmsg) (r : rcpt) : encmsg * result bytes :=
  let c := e_core m in
  let rs := e_rcpts m in
  match get_attr c Algorithm with
  | Err e => (m, Err e)
  | Ok target =>
    if negb (has_recipient (r_id r) rs) then (m, Err CoseException)
    else
      match verify_recipients rs with
      | Err e => (m, Err e)
      | Ok _ =>
        if has_class RDirect rs then (m, enc_decrypt X "Encrypt" c)
        else if has_class RAgree rs || has_class RKeyWrap rs || has_class RAgreeKW rs then
          match compute_cek r target true with
          | Err e => (m, Err e)
          | Ok k => let c' := with_key c k in (EncMsg c' rs, enc_decrypt X "Encrypt" c')
          end
        else (m, Err CoseException)
      end
  end.

(** ** COSE_Mac *)

(** [recipients] is a plain attribute here (macmessage.py:58-59). *)
Record macmsg := MacMsg { mm_core : core; mm_tag : pyval; mm_rcpts : option (list rcpt) }.

(** [MacMessage.__init__], macmessage.py:46-59. *)
Definition mac_init (a : args) (rs : option (list rcpt)) : result macmsg :=
  c <- core_init X a ;; Ok (MacMsg c (VBytes []) rs).

(** [MacMessage.from_cose_obj], macmessage.py:33-44. *)
Definition mac_from_obj (allow : bool) (obj : list pyval) : result macmsg :=
  '(c, rest) <- core_from_obj X allow obj ;;
  match rest with
  | [] => Err IndexError
  | t :: rest' =>
    o <- recipients_from allow "Mac_Recipient" rest' ;;
    Ok (MacMsg c t o)
  end.

(** [MacCommon.compute_tag] on a MacMessage: stores the tag. maccommon.py:48-59, called
    at macmessage.py:82,86,98. *)
Definition mac_super_compute (n : N) (m : macmsg) : (N * macmsg) * result bytes :=
  match mac_compute X "MAC" (mm_core m) with
  | Ok t => ((n, MacMsg (mm_core m) (VBytes t) (mm_rcpts m)), Ok t)
  | Err e => ((n, m), Err e)
  end.

(** [MacMessage.compute_tag], macmessage.py:75-103. [SymmetricKey] is imported for type
    checking only (22-23), so line 97 raises NameError. *)
Definition macm_compute_tag (n : N) (m : macmsg) : (N * macmsg) * result bytes :=
  let c := mm_core m in
  match get_attr c Algorithm with
  | Err e => ((n, m), Err e)
  | Ok target =>
    match mm_rcpts m with
    | None => ((n, m), Err TypeError)
    | Some rs =>
      match verify_recipients rs with
      | Err e => ((n, m), Err e)
      | Ok _ =>
        if has_class RDirect rs then mac_super_compute n m
        else if has_class RAgree rs then
          match rs with
          | [] => ((n, m), Err IndexError)
          | r :: _ =>
            match compute_cek r target false with
            | Err e => ((n, m), Err e)
            | Ok k => mac_super_compute n (MacMsg (with_key c k) (mm_tag m) (Some rs))
            end
          end
        else if has_class RKeyWrap rs || has_class RAgreeKW rs then
          match get_key_length target with
          | Err e => ((n, m), Err e)
          | Ok len =>
            match cek_loop (N.succ n) (VBytes (x_urandom X n len)) rs with
            | ((n', rs'), Err e) => ((n', MacMsg c (mm_tag m) (Some rs')), Err e)
            | ((n', rs'), Ok _) => ((n', MacMsg c (mm_tag m) (Some rs')), Err NameError)
            end
          end
        else ((n, m), Err CoseException)
      end
    end
  end.

(** [MacMessage.encode], macmessage.py:61-73. *)
Definition macm_encode (n : N) (m : macmsg) (tag mac : bool) : (N * macmsg) * result bytes :=
  match phdr_encoded (mm_core m) with
  | Err e => ((n, m), Err e)
  | Ok p =>
    let '((n1, m1), t) :=
      if mac then let '(s, x) := macm_compute_tag n m in (s, b <- x ;; Ok [VBytes b])
      else ((n, m), Ok []) in
    match t with
    | Err e => ((n1, m1), Err e)
    | Ok tl =>
      let c := mm_core m1 in
      let base := [VBytes p; VDict (uhdr c); vopt (payload c)] ++ tl in
      match mm_rcpts m1 with
      | None => ((n1, m1), Err TypeError)
      | Some [] => ((n1, m1), emit c 97 tag base)
      | Some rs =>
        match get_attr c Algorithm with
        | Err e => ((n1, m1), Err e)
        | Ok _ =>
          match rcpts_encode n1 rs with
          | ((n2, rs'), Err e) => ((n2, MacMsg c (mm_tag m1) (Some rs')), Err e)
          | ((n2, rs'), Ok vs) =>
            ((n2, MacMsg c (mm_tag m1) (Some rs')), emit c 97 tag (base ++ [VList vs]))
          end
        end
      end
    end
  end.

(** [verify_tag] is the inherited one (maccommon.py:36-46). *)
Definition macm_verify_tag (m : macmsg) : result bool := mac_verify X "MAC" (mm_core m) (mm_tag m).

(** ** Decoding any message: cosemessage.py:35-74 *)

(** The message classes that have a CBOR tag: enc0message.py:21-24, mac0message.py:19-22,
    sign1message.py:18-21, encmessage.py:20-23, macmessage.py:28-31, signmessage.py:95-98.
    *)
Inductive message :=
| MSign1 (m : sign1) | MSign (m : signmsg) | MEnc0 (c : core) | MMac0 (m : macmsg0)
| MEnc (m : encmsg) | MMac (m : macmsg).

(** The [cbor_tag] of each message class. enc0message.py:24, mac0message.py:22,
    sign1message.py:21, encmessage.py:23, macmessage.py:31, signmessage.py:97. *)
Definition message_tag (m : message) : N :=
  match m with
  | MSign1 _ => 18 | MSign _ => 98 | MEnc0 _ => 16 | MMac0 _ => 17 | MEnc _ => 96 | MMac _ => 97
  end.

(** [cls._COSE_MSG_ID[tag].from_cose_obj(...)]; the registrations are the
    [record_cbor_tag] decorators of the six message classes. cosemessage.py:63-67. *)
Definition from_cose_obj (allow : bool) (t : N) (obj : list pyval) : result message :=
  if N.eqb t 16 then m <- enc0_from_obj X allow obj ;; Ok (MEnc0 m)
  else if N.eqb t 17 then m <- mac0_from_obj X allow obj ;; Ok (MMac0 m)
  else if N.eqb t 18 then m <- sign1_from_obj X allow obj ;; Ok (MSign1 m)
  else if N.eqb t 96 then m <- enc_from_obj allow obj ;; Ok (MEnc m)
  else if N.eqb t 97 then m <- mac_from_obj allow obj ;; Ok (MMac m)
  else if N.eqb t 98 then m <- sign_from_obj X allow obj ;; Ok (MSign m)
  else Err KeyError.

(** [expected]: [None] when called on CoseMessage, else the tag of the class it is
    called on. cosemessage.py:36-74. *)
Definition decode (expected : option N) (allow : bool) (received : pyval) : result message :=
  match loads received with
  | Err e => Err (if is_value_error e then ValueError else e)
  | Ok (VTag t (VList obj)) =>
    m <- from_cose_obj allow t obj ;;
    match expected with
    | Some t' => if N.eqb (message_tag m) t' then Ok m else Err TypeError
    | None => Ok m
    end
  | Ok (VTag _ _) => Err TypeError
  | Ok _ => Err AttributeError
  end.

End WithCrypto.
