(** Vocabulary of C86 and C87. *)
From Coq Require Import NArith ZArith Bool String.
From Coq Require Import Init.Byte List.
From Verif Require Import Bytes Value Cbor Registry Crypto Keys Algorithms Headers Messages Recipients Context.
Import ListNotations.

(** The object that an assignment changes; creating an object changes none. *)
Inductive target := TParty (i : N) | TPub (i : N) | TContext (i : N).
Definition changes (o : cop) : option target :=
  match o with
  | NewParty _ | NewPub _ _ _ | NewContext _ _ _ _ _ => None
  | SetParty i _ _ => Some (TParty i)
  | SetLength i _ | SetProtected i _ | SetPubOther i _ => Some (TPub i)
  | SetAlgorithm i _ | SetPub i _ | SetU i _ | SetV i _ | SetPriv i _ => Some (TContext i)
  end.

(** The objects that context [i] consists of. *)
Definition parts (w : world) (i : N) : list target :=
  [TContext i; TParty (cx_u (w_ctx w i)); TParty (cx_v (w_ctx w i)); TPub (cx_pub (w_ctx w i))].

(** No operation of the program assigns to a part of context [i]. *)
Definition leaves_alone (w : world) (i : N) (l : list cop) : Prop :=
  Forall (fun o => forall t, changes o = Some t -> ~ In t (parts w i)) l.

(** Context [i] and its parts have been created. *)
Definition exists_ctx (w : world) (i : N) : Prop :=
  (i < w_next w /\ cx_u (w_ctx w i) < w_next w /\ cx_v (w_ctx w i) < w_next w /\ cx_pub (w_ctx w i) < w_next w)%N.

(** The program of recipient.py:158-171: two PartyInfo objects, a SuppPubInfo and the
    context made of them. *)
Definition build (w : world) (k : kdfctx) : world * N :=
  match kc_u k, kc_v k with
  | [ui; un; uo], [vi; vn; vo] =>
    let '(w1, _) := cstep w (NewParty (Party ui un uo)) in
    let '(w2, _) := cstep w1 (NewParty (Party vi vn vo)) in
    let '(w3, _) := cstep w2 (NewPub (Z.of_nat (kc_len k)) (kc_protected k) (kc_pub_other k)) in
    (fst (cstep w3 (NewContext (kc_alg k) (w_next w2) (Some (w_next w)) (Some (w_next w1)) (kc_priv k))), w_next w3)
  | _, _ => (w, w_next w)
  end.

(** What reading the attributes of context [i], and of its parts, gives. *)
Definition shows (w : world) (i : N) (a : pyval) (u v : party) (s : pubinfo) (o : pyval) : Prop :=
  cx_alg (w_ctx w i) = a /\ w_party w (cx_u (w_ctx w i)) = u /\ w_party w (cx_v (w_ctx w i)) = v /\
  w_pub w (cx_pub (w_ctx w i)) = s /\ cx_priv (w_ctx w i) = o.

(** The world after one operation. *)
Definition after (w : world) (o : cop) : world := fst (cstep w o).
