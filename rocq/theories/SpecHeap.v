(** Vocabulary of C88 and C89: shared objects. *)
From Coq Require Import NArith ZArith Bool String.
From Coq Require Import Init.Byte List.
From Verif Require Import Bytes Value Cbor Registry Crypto Keys Algorithms Headers Messages Recipients Heap.
Import ListNotations.

(** The recipient objects behind a reference, and behind a list of references. *)
Fixpoint objects (r : rref) : list N := match r with Ref i subs => i :: flat_map objects subs end.
Definition all_objects (l : list rref) : list N := flat_map objects l.
Definition msg_refs (m : hmsg) : list rref :=
  match m with HEnc _ l => l | HMac _ _ (Some l) => l | HMac _ _ None => [] end.

(** A message with its recipients as a value: what a program sees that has only this
    message. *)
Inductive view := VEnc (m : encmsg) | VMac (m : macmsg).
Definition view_of (w : heap) (m : N) : view :=
  match h_msg w m with
  | HEnc c l => VEnc (EncMsg c (map (load (h_store w)) l))
  | HMac c t o => VMac (MacMsg c t (option_map (map (load (h_store w))) o))
  end.

(** No recipient object occurs twice in message [m]. *)
Definition no_repeats (w : heap) (m : N) : Prop := NoDup (all_objects (msg_refs (h_msg w m))).
(** Messages [m] and [m'] share no recipient object. *)
Definition disjoint (w : heap) (m m' : N) : Prop :=
  forall i, In i (all_objects (msg_refs (h_msg w m))) -> ~ In i (all_objects (msg_refs (h_msg w m'))).

(** The operation is none on [m] or its recipients. *)
Definition elsewhere (w : heap) (m : N) (o : hop) : Prop :=
  match o with
  | Encode m' _ _ | ComputeTag m' | Decrypt m' _ | Assign m' _ => m' <> m
  | AssignRcpt i _ => ~ In i (all_objects (msg_refs (h_msg w m)))
  end.

(** What a program that has only one message can do with it: the operations of [Heap.hop]
    on a value. Decrypting gets the recipient as it is at that moment. *)
Inductive vop :=
| VEncode (tag secure : bool)
| VTag
| VDecrypt (r : rcpt)
| VAssign (f : core -> core)
| VAssignRcpt (i : N) (f : core -> core).

Fixpoint change (i : N) (f : core -> core) (r : rcpt) : rcpt :=
  match r with
  | Rcpt id rc c ctx subs => Rcpt id rc (if N.eqb id i then f c else c) ctx (map (change i f) subs)
  end.

(** [n]: the position in the sequence of random numbers. *)
Definition vstep (X : crypto) (n : N) (v : view) (o : vop) : view * result bytes :=
  match o, v with
  | VEncode tag sec, VEnc m => let '((_, m'), x) := encm_encode X n m tag sec in (VEnc m', x)
  | VEncode tag sec, VMac m => let '((_, m'), x) := macm_encode X n m tag sec in (VMac m', x)
  | VTag, VMac m => let '((_, m'), x) := macm_compute_tag X n m in (VMac m', x)
  | VTag, VEnc _ => (v, Err AttributeError)
  | VDecrypt r, VEnc m => let '(m', x) := encm_decrypt X m r in (VEnc m', x)
  | VDecrypt _, VMac _ => (v, Err AttributeError)
  | VAssign f, VEnc m => (VEnc (EncMsg (f (e_core m)) (e_rcpts m)), Ok [])
  | VAssign f, VMac m => (VMac (MacMsg (f (mm_core m)) (mm_tag m) (mm_rcpts m)), Ok [])
  | VAssignRcpt i f, VEnc m => (VEnc (EncMsg (e_core m) (map (change i f) (e_rcpts m))), Ok [])
  | VAssignRcpt i f, VMac m => (VMac (MacMsg (mm_core m) (mm_tag m) (option_map (map (change i f)) (mm_rcpts m))), Ok [])
  end.

(** A history of a program that has only the message [v]: operations with their results.
    Other random numbers may be drawn in between. *)
Inductive alone (X : crypto) : view -> list (vop * result bytes) -> view -> Prop :=
| A_done v : alone X v [] v
| A_step n v o x v1 h v2 : vstep X n v o = (v1, x) -> alone X v1 h v2 -> alone X v ((o, x) :: h) v2.

(** The part of a history of a program with many messages that concerns message [m]. *)
Definition mine (w : heap) (m : N) (o : hop) : option vop :=
  match o with
  | Encode m' tag sec => if N.eqb m' m then Some (VEncode tag sec) else None
  | ComputeTag m' => if N.eqb m' m then Some VTag else None
  | Decrypt m' r => if N.eqb m' m then Some (VDecrypt (load (h_store w) r)) else None
  | Assign m' f => if N.eqb m' m then Some (VAssign f) else None
  | AssignRcpt i f => if existsb (N.eqb i) (all_objects (msg_refs (h_msg w m))) then Some (VAssignRcpt i f) else None
  end.
Fixpoint history_of (X : crypto) (w : heap) (m : N) (ops : list hop) : list (vop * result bytes) :=
  match ops with
  | [] => []
  | o :: r =>
    let '(w', x) := hstep X w o in
    match mine w m o with
    | Some v => (v, x) :: history_of X w' m r
    | None => history_of X w' m r
    end
  end.

(** ** COSE_Sign *)

(** All signers of message [m] belong to it. *)
Definition own_signers (w : sworld) (m : N) : Prop :=
  forall s, In s (sw_lists w (sw_list w m)) -> sw_parent w s = Some m.
(** Message [m] with its signers as a value. *)
Definition sign_view (w : sworld) (m : N) : signmsg :=
  SignMsg (sw_core w m) (map (sw_sig w) (sw_lists w (sw_list w m))).

(** The program keeps to the rules for message [m]: it does not give its signers to other
    messages, and does not put signers into its list but by assigning the list. *)
Definition considerate (w : sworld) (m : N) (o : sop) : Prop :=
  match o with
  | SetSigners m' l => m' = m \/ (forall s, In s (sw_lists w l) -> ~ In s (sw_lists w (sw_list w m)))
  | ChangeList l new => l = sw_list w m -> incl new (sw_lists w l)
  | _ => True
  end.
Fixpoint considerate_runs (w : sworld) (m : N) (ops : list sop) : Prop :=
  match ops with [] => True | o :: r => considerate w m o /\ considerate_runs (fst (sstep w o)) m r end.
