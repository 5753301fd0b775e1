(** The life of a message object: assignments to its attributes, in any order. *)
From Coq Require Import NArith ZArith Bool String.
From Coq Require Import Init.Byte List.
From Verif Require Import Bytes Value Registry Crypto Keys Headers Messages.
Import ListNotations.

(** One assignment, or one change of the headers. *)
Inductive msg_op :=
| OPayload (v : pyval)          (* msg.payload = v           cosemessage.py:134-138 *)
| OAad (v : pyval)              (* msg.external_aad = v      cosemessage.py:108-112 *)
| OKey (v : pyval)              (* msg.key = v               cosemessage.py:118-128 *)
| OLocal (v : pyval)            (* msg.local_attrs = v       cosebase.py:119-122 *)
| OTstr (v : pyval)             (* msg.alg_tstr_encoding = v cosebase.py:50 *)
| OSignature (v : pyval)        (* signer.signature = v      signer.py:45-50 *)
| OHeader (o : hdr_op).         (* cosebase.py:83-113 *)

(** [self.alg_tstr_encoding = v], cosebase.py:50: a plain attribute, of which only the truth
    value is used (cosebase.py:157). *)
Definition with_tstr (c : core) (t : bool) : core :=
  Core (phdr c) (phdr_raw c) (uhdr c) (local c) t (payload c) (aad c) (ckey c).

(** The object after the statement, and how the statement ended; cosebase.py:83-122,
    cosemessage.py:108-138, signer.py:45-50. *)
Definition msg_step (c : core) (o : msg_op) : core * result unit :=
  match o with
  | OPayload v => match check_payload v with Ok p => (with_payload c p, Ok tt) | Err e => (c, Err e) end
  | OAad v => match check_aad v with Ok a => (with_aad c a, Ok tt) | Err e => (c, Err e) end
  | OKey v => match check_key v with Ok k => (with_key c k, Ok tt) | Err e => (c, Err e) end
  | OLocal v => set_local_attrs c v
  | OTstr v => (with_tstr c (truthy v), Ok tt)
  | OSignature v => match v with VBytes b => (with_payload c (Some b), Ok tt) | _ => (c, Err TypeError) end
  | OHeader h => hdr_step c h
  end.

(** A program goes on after an exception it has caught; same lines. *)
Definition msg_run (c : core) (l : list msg_op) : core := fold_left (fun c o => fst (msg_step c o)) l c.
