(** Messages, signers and recipients as mutable objects that programs share by reference.
    The other files treat objects as values; [HeapProofs.v] relates the two views. *)
From Coq Require Import NArith ZArith Bool String.
From Coq Require Import Init.Byte List.
From Verif Require Import Bytes Value Cbor Registry Crypto Keys Algorithms Headers Messages Recipients.
Import ListNotations.
Local Open Scope result_scope.

(** Assignment to one object, the others unchanged (e.g. encmessage.py:92). *)
Definition upd {A} (f : N -> A) (i : N) (x : A) : N -> A := fun j => if N.eqb j i then x else f j.

(** ** COSE_Encrypt and COSE_Mac: recipient objects *)

(** The attributes of a recipient object. recipient.py:106-129. *)
Record robj := RObj { o_class : rclass; o_core : core; o_ctx : pyval }.

(** A reference to a recipient, with the references in its list [_recipients].
    Simplification: these lists do not change once messages share the recipient, and no
    recipient contains itself. recipient.py:128-148. *)
Inductive rref := Ref (id : N) (subs : list rref).

(** Writing back the attributes of the recipients a call changed (encmessage.py:90-95,
    recipient.py:174,185). *)
Definition store := N -> robj.
(** Assignment to the attributes of one recipient, cosebase.py:87-122,
    cosemessage.py:108-138. *)
Definition set_core (st : store) (i : N) (c : core) : store := upd st i (RObj (o_class (st i)) c (o_ctx (st i))).

(** The objects behind a reference, as they are now. [self.recipients],
    encmessage.py:125-127, recipient.py:135-137. *)
Fixpoint load (st : store) (r : rref) : rcpt :=
  match r with
  | Ref i subs => Rcpt i (o_class (st i)) (o_core (st i)) (o_ctx (st i)) (map (load st) subs)
  end.

(** EncMessage: attributes and the list of its recipients; MacMessage: also its tag.
    Simplification: programs do not change the list object a MacMessage got.
    encmessage.py:36-58, macmessage.py:46-59. *)
Inductive hmsg :=
| HEnc (c : core) (l : list rref)
| HMac (c : core) (t : pyval) (l : option (list rref)).

Section Heap.
Variable X : crypto.

(** [encode] of the four recipient classes (recipient.py:216-230, 277-284, 398-432,
    507-515), with assignments to [self] written to the store. *)
Fixpoint h_encode (n : N) (st : store) (r : rref) {struct r} : (N * store) * result pyval :=
  match r with
  | Ref i subs =>
    let encode_subs :=
      fix go (n : N) (st : store) (l : list rref) : (N * store) * result (list pyval) :=
        match l with
        | [] => ((n, st), Ok [])
        | x :: l' =>
          match h_encode n st x with
          | (s, Err e) => (s, Err e)
          | ((n1, st1), Ok v) =>
            match go n1 st1 l' with
            | (s, Err e) => (s, Err e)
            | (s, Ok vs) => (s, Ok (v :: vs))
            end
          end
        end in
    let finish (n : N) (st : store) (items : list pyval) : (N * store) * result pyval :=
      match subs with
      | [] => ((n, st), Ok (VList items))
      | _ =>
        match encode_subs n st subs with
        | (s, Err e) => (s, Err e)
        | (s, Ok vs) => (s, Ok (VList (items ++ [VList vs])))
        end
      end in
    let c := o_core (st i) in
    match o_class (st i) with
    | RDirect =>
      ((n, st),
       alg <- get_attr c Algorithm ;;
       if veqb alg (algc (-6)) && negb (Nat.eqb (length (phdr c)) 0) then Err CoseException
       else if is_none alg then Err CoseException
       else if negb (Nat.eqb (length subs) 0) then Err CoseException
       else p <- phdr_encoded c ;; Ok (VList [VBytes p; VDict (uhdr c); VBytes []]))
    | RKeyWrap =>
      match (p <- phdr_encoded c ;; w <- kw_encrypt X n c (map (load st) subs) ;; Ok (p, w)) with
      | Err e => ((N.succ n, st), Err e)
      | Ok (p, w) => finish (N.succ n) st [VBytes p; VDict (uhdr c); VBytes w]
      end
    | RAgree =>
      match (alg <- get_attr c Algorithm ;;
             if is_none alg then Err CoseMalformedMessage
             else
               let pk := dget_or (local c) StaticKey VNone in
               if is_none pk then Err CoseException else Ok (alg, pk)) with
      | Err e => ((n, st), Err e)
      | Ok (alg, pk) =>
        let '(c1, res) :=
          match ckey c with
          | Some _ => (c, Ok tt)
          | None =>
            match alg_in alg es_hkdf with
            | Err e => (c, Err e)
            | Ok true => setup_ephemeral X n c pk
            | Ok false => (c, Err CoseException)
            end
          end in
        let st1 := set_core st i c1 in
        match (_ <- res ;;
               if Nat.ltb 1 (length subs) then Err CoseMalformedMessage
               else
                 e <- get_attr c1 EphemeralKey ;;
                 es <- (if is_none e then alg_in alg es_hkdf else Ok false) ;;
                 if es : bool then Err CoseMalformedMessage else phdr_encoded c1) with
        | Err e => ((N.succ n, st1), Err e)
        | Ok p => finish (N.succ n) st1 [VBytes p; VDict (uhdr c1); VBytes []]
        end
      end
    | RAgreeKW =>
      match (p <- phdr_encoded c ;; alg <- get_attr c Algorithm ;;
             _ <- get_key_wrap_func alg ;; Ok p) with
      | Err e => ((n, st), Err e)
      | Ok p =>
        let '(c1, x) := kakw_encrypt X n c in
        let st1 := set_core st i c1 in
        match x with
        | Err e => ((N.succ n, st1), Err e)
        | Ok w => finish (N.succ n) st1 [VBytes p; VDict (uhdr c1); VBytes w]
        end
      end
    end
  end.

(** [[r.encode(target_alg=...) for r in self.recipients]], encmessage.py:69-70,
    macmessage.py:69-70, each element seeing the changes made by the ones before it. *)
Fixpoint h_encodes (n : N) (st : store) (l : list rref) : (N * store) * result (list pyval) :=
  match l with
  | [] => ((n, st), Ok [])
  | x :: l' =>
    match h_encode n st x with
    | (s, Err e) => (s, Err e)
    | ((n1, st1), Ok v) =>
      match h_encodes n1 st1 l' with
      | (s, Err e) => (s, Err e)
      | (s, Ok vs) => (s, Ok (v :: vs))
      end
    end
  end.

(** The loop at encmessage.py:90-95 and macmessage.py:91-96. *)
Fixpoint h_cek_loop (n : N) (st : store) (kb : pyval) (l : list rref) : (N * store) * result pyval :=
  match l with
  | [] => ((n, st), Ok kb)
  | Ref i subs :: l' =>
    let c := o_core (st i) in
    let '(st1, kb1) :=
      match payload c with
      | Some [] => (set_core st i (with_payload c (match kb with VBytes b => Some b | _ => None end)), kb)
      | p => (st, vopt p)
      end in
    let '(r, x) := rcpt_encrypt X n (load st1 (Ref i subs)) in
    let st2 := set_core st1 i (r_core r) in
    match x with
    | Err e => ((N.succ n, st2), Err e)
    | Ok _ => h_cek_loop (N.succ n) st2 kb1 l'
    end
  end.

(** [EncMessage.encrypt], encmessage.py:75-102; with the attributes of the message
    afterwards. *)
Definition h_encrypt (n : N) (st : store) (c : core) (l : list rref) : (N * store) * core * result bytes :=
  let rs := map (load st) l in
  match (alg <- get_attr c Algorithm ;; _ <- verify_recipients rs ;; Ok alg) with
  | Err e => ((n, st), c, Err e)
  | Ok target =>
    if has_class RDirect rs then ((n, st), c, enc_encrypt X "Encrypt" c)
    else if has_class RAgree rs then
      match rs with
      | [] => ((n, st), c, Err IndexError)
      | r :: _ =>
        match compute_cek X r target false with
        | Err e => ((n, st), c, Err e)
        | Ok k => let c' := with_key c k in ((n, st), c', enc_encrypt X "Encrypt" c')
        end
      end
    else if has_class RKeyWrap rs || has_class RAgreeKW rs then
      match get_key_length target with
      | Err e => ((n, st), c, Err e)
      | Ok len =>
        match h_cek_loop (N.succ n) st (VBytes (x_urandom X n len)) l with
        | (s, Err e) => (s, c, Err e)
        | (s, Ok kb) =>
          match sym_with kb target [EncryptOp] with
          | Err e => (s, c, Err e)
          | Ok k => let c' := with_key c (Some k) in (s, c', enc_encrypt X "Encrypt" c')
          end
        end
      end
    else ((n, st), c, Err CoseException)
  end.

(** [EncMessage.encode], encmessage.py:60-73. *)
Definition h_enc_encode (n : N) (st : store) (c : core) (l : list rref) (tag encrypt : bool)
  : (N * store) * core * result bytes :=
  match phdr_encoded c with
  | Err e => ((n, st), c, Err e)
  | Ok p =>
    let '((n1, st1), c1, body) :=
      if encrypt then let '(s, c1, x) := h_encrypt n st c l in (s, c1, b <- x ;; Ok (VBytes b))
      else ((n, st), c, Ok (vopt (payload c))) in
    match body with
    | Err e => ((n1, st1), c1, Err e)
    | Ok b =>
      let base := [VBytes p; VDict (uhdr c1); b] in
      match l with
      | [] => ((n1, st1), c1, emit c1 96 tag base)
      | _ =>
        match get_attr c1 Algorithm with
        | Err e => ((n1, st1), c1, Err e)
        | Ok _ =>
          match h_encodes n1 st1 l with
          | (s, Err e) => (s, c1, Err e)
          | (s, Ok vs) => (s, c1, emit c1 96 tag (base ++ [VList vs]))
          end
        end
      end
    end
  end.

(** [MacMessage.compute_tag], macmessage.py:75-103 and maccommon.py:48-59. *)
Definition h_compute_tag (n : N) (st : store) (c : core) (t : pyval) (o : option (list rref))
  : (N * store) * (core * pyval) * result bytes :=
  match get_attr c Algorithm with
  | Err e => ((n, st), (c, t), Err e)
  | Ok target =>
    match o with
    | None => ((n, st), (c, t), Err TypeError)
    | Some l =>
      let rs := map (load st) l in
      let super c := match mac_compute X "MAC" c with
                     | Ok b => ((n, st), (c, VBytes b), Ok b)
                     | Err e => ((n, st), (c, t), Err e)
                     end in
      match verify_recipients rs with
      | Err e => ((n, st), (c, t), Err e)
      | Ok _ =>
        if has_class RDirect rs then super c
        else if has_class RAgree rs then
          match rs with
          | [] => ((n, st), (c, t), Err IndexError)
          | r :: _ =>
            match compute_cek X r target false with
            | Err e => ((n, st), (c, t), Err e)
            | Ok k => super (with_key c k)
            end
          end
        else if has_class RKeyWrap rs || has_class RAgreeKW rs then
          match get_key_length target with
          | Err e => ((n, st), (c, t), Err e)
          | Ok len =>
            match h_cek_loop (N.succ n) st (VBytes (x_urandom X n len)) l with
            | (s, Err e) => (s, (c, t), Err e)
            | (s, Ok _) => (s, (c, t), Err NameError)
            end
          end
        else ((n, st), (c, t), Err CoseException)
      end
    end
  end.

(** [MacMessage.encode], macmessage.py:61-73. *)
Definition h_mac_encode (n : N) (st : store) (c : core) (t : pyval) (o : option (list rref)) (tag mac : bool)
  : (N * store) * (core * pyval) * result bytes :=
  match phdr_encoded c with
  | Err e => ((n, st), (c, t), Err e)
  | Ok p =>
    let '((n1, st1), (c1, t1), x) :=
      if mac then let '(s, m, x) := h_compute_tag n st c t o in (s, m, b <- x ;; Ok [VBytes b])
      else ((n, st), (c, t), Ok []) in
    match x with
    | Err e => ((n1, st1), (c1, t1), Err e)
    | Ok tl =>
      let base := [VBytes p; VDict (uhdr c1); vopt (payload c1)] ++ tl in
      match o with
      | None => ((n1, st1), (c1, t1), Err TypeError)
      | Some [] => ((n1, st1), (c1, t1), emit c1 97 tag base)
      | Some l =>
        match get_attr c1 Algorithm with
        | Err e => ((n1, st1), (c1, t1), Err e)
        | Ok _ =>
          match h_encodes n1 st1 l with
          | (s, Err e) => (s, (c1, t1), Err e)
          | (s, Ok vs) => (s, (c1, t1), emit c1 97 tag (base ++ [VList vs]))
          end
        end
      end
    end
  end.

(** Everything a program has: the random numbers drawn so far, its recipient objects and its
    messages. The objects of encmessage.py:36-58, macmessage.py:46-59 and
    recipient.py:106-129. *)
Record heap := MkHeap { h_n : N; h_store : store; h_msg : N -> hmsg }.

(** What it can do: call [encode], [compute_tag] or [decrypt] of message [m], or assign to
    attributes of a message or recipient ([f] is any change of the attributes).
    encmessage.py:60-123, macmessage.py:61-103, cosebase.py:87-122,
    cosemessage.py:108-138. *)
Inductive hop :=
| Encode (m : N) (tag secure : bool)
| ComputeTag (m : N)
| Decrypt (m : N) (r : rref)
| Assign (m : N) (f : core -> core)
| AssignRcpt (i : N) (f : core -> core).

(** [decrypt] and [compute_tag] exist on one class only. Decrypting assigns to [self.key] only
    (encmessage.py:104-123). *)
Definition hstep (w : heap) (o : hop) : heap * result bytes :=
  match o with
  | Encode m tag sec =>
    match h_msg w m with
    | HEnc c l =>
      let '((n, st), c', x) := h_enc_encode (h_n w) (h_store w) c l tag sec in
      (MkHeap n st (upd (h_msg w) m (HEnc c' l)), x)
    | HMac c t l =>
      let '((n, st), (c', t'), x) := h_mac_encode (h_n w) (h_store w) c t l tag sec in
      (MkHeap n st (upd (h_msg w) m (HMac c' t' l)), x)
    end
  | ComputeTag m =>
    match h_msg w m with
    | HEnc _ _ => (w, Err AttributeError)
    | HMac c t l =>
      let '((n, st), (c', t'), x) := h_compute_tag (h_n w) (h_store w) c t l in
      (MkHeap n st (upd (h_msg w) m (HMac c' t' l)), x)
    end
  | Decrypt m r =>
    match h_msg w m with
    | HEnc c l =>
      let '(m', x) := encm_decrypt X (EncMsg c (map (load (h_store w)) l)) (load (h_store w) r) in
      (MkHeap (h_n w) (h_store w) (upd (h_msg w) m (HEnc (e_core m') l)), x)
    | HMac _ _ _ => (w, Err AttributeError)
    end
  | Assign m f =>
    (MkHeap (h_n w) (h_store w)
       (upd (h_msg w) m (match h_msg w m with HEnc c l => HEnc (f c) l | HMac c t l => HMac (f c) t l end)), Ok [])
  | AssignRcpt i f => (MkHeap (h_n w) (set_core (h_store w) i (f (o_core (h_store w i)))) (h_msg w), Ok [])
  end.

(** A history of such calls (encmessage.py:60-123, macmessage.py:61-103). *)
Definition hruns (w : heap) (l : list hop) : heap := fold_left (fun w o => fst (hstep w o)) l w.

(** ** COSE_Sign: signer objects and lists of them *)

(** [sw_list m]: the list object that is [_signers] of message [m]; [sw_lists]: what the list
    objects contain; [sw_parent s]: [_parent] of a signer (signer.py:35). *)
Record sworld := SWorld {
  sw_core : N -> core; sw_list : N -> N; sw_lists : N -> list N; sw_sig : N -> core; sw_parent : N -> option N }.

(** What a program can do with SignMessage and CoseSignature objects: signmessage.py:65-87,
    signer.py:52-73. *)
Inductive sop :=
| SetSigners (m l : N)                       (* m.signers = l, also in the constructor *)
| SetNotList (m : N)                         (* m.signers = anything else *)
| ChangeList (l : N) (new : list N)          (* append, pop, ... on a list object *)
| AssignSign (m : N) (f : core -> core)      (* to attributes of a message *)
| AssignSigner (s : N) (f : core -> core).   (* to attributes of a signer *)

(** The loop at signmessage.py:68-69. *)
Definition adopt (parent : N -> option N) (m : N) (l : list N) : N -> option N :=
  fold_left (fun p s => upd p s (Some m)) l parent.

(** One such call: signmessage.py:65-87, signer.py:52-73, signcommon.py:39-62. *)
Definition sstep (w : sworld) (o : sop) : sworld * result unit :=
  match o with
  | SetSigners m l =>
    (SWorld (sw_core w) (upd (sw_list w) m l) (sw_lists w) (sw_sig w) (adopt (sw_parent w) m (sw_lists w l)), Ok tt)
  | SetNotList _ => (w, Err CoseException)                               (* 71-72 *)
  | ChangeList l new => (SWorld (sw_core w) (sw_list w) (upd (sw_lists w) l new) (sw_sig w) (sw_parent w), Ok tt)
  | AssignSign m f => (SWorld (upd (sw_core w) m (f (sw_core w m))) (sw_list w) (sw_lists w) (sw_sig w) (sw_parent w), Ok tt)
  | AssignSigner s f => (SWorld (sw_core w) (sw_list w) (sw_lists w) (upd (sw_sig w) s (f (sw_sig w s))) (sw_parent w), Ok tt)
  end.

(** A history of such calls: signmessage.py:65-87, signer.py:52-73. *)
Definition sruns (w : sworld) (l : list sop) : sworld := fold_left (fun w o => fst (sstep w o)) l w.

(** The comprehension at signmessage.py:80: each signer signs for its own parent
    (signer.py:52-74). *)
Fixpoint h_signers (w : sworld) (seed : N) (l : list N) (detached : pyval) : result (list pyval) :=
  match l with
  | [] => Ok []
  | s :: r =>
    v <- signer_encode X seed (option_map (sw_core w) (sw_parent w s)) (sw_sig w s) detached ;;
    vs <- h_signers w (N.succ seed) r detached ;;
    Ok (v :: vs)
  end.

(** [_SignMessage.encode], signmessage.py:74-87. *)
Definition h_sign_encode (w : sworld) (seed : N) (m : N) (tag : bool) (detached : pyval) : result bytes :=
  let c := sw_core w m in
  p <- phdr_encoded c ;;
  let base := [VBytes p; VDict (uhdr c); vopt (payload c)] in
  items <- (match sw_lists w (sw_list w m) with
            | [] => Ok base
            | l => vs <- h_signers w seed l detached ;; Ok (base ++ [VList vs])
            end) ;;
  emit c 98 tag items.

End Heap.

(** ** Assigning recipients: the list objects *)

(** The loop of the [recipients] setter (encmessage.py:135-138, recipient.py:145-148) when
    the argument is the list [self._recipients] itself: the iterator looks at position [i] of
    the list the body appends to. [fuel]: iterations; None: still running. *)
Fixpoint append_own (fuel i : nat) (l : list N) : option (list N) :=
  match nth_error l i with
  | None => Some l
  | Some r => match fuel with O => None | S f => append_own f (S i) (l ++ [r]) end
  end.
