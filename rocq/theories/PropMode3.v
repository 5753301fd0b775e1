(** C132: strict receivers and messages with recipients. *)
From Coq Require Import NArith ZArith Bool String.
From Coq Require Import Init.Byte List.
From Verif Require Import Bytes Value Cbor SpecData Registry Crypto Toy Keys Algorithms Headers Messages Recipients
  SpecRegistry SpecKeys SpecCrypto SpecAlg SpecHdr SpecTrip SpecMsg SpecRcpt SpecRcptTrip SpecMode ModeProofs
  PropHdr PropMsg PropRcpt PropRcptTrip PropMode PropMode2.
Import ListNotations.

Lemma recipients_parts l l' : recipients_arrive l l' -> Forall2 arrived (map r_core l) (map r_core l').
Proof.
  unfold recipients_arrive. induction 1 as [|r r' l l' (_ & _ & A) _ IH]; cbn [map]; constructor; [exact A|exact IH].
Qed.

(** Whatever the recipients are: when a permissive receiver gets the headers of the message [c] and
    of its recipients [rs], and none of them is unknown, a strict receiver gets the same. *)
Theorem C132_recipients : forall X expected v c rs, Forall no_unknown (c :: map r_core rs) ->
  (forall m, rs <> [] -> decode X expected true v = Ok (MEnc m) -> arrived c (e_core m) -> recipients_arrive rs (e_rcpts m) ->
     decode X expected false v = Ok (MEnc m)) /\
  (forall m rs', decode X expected true v = Ok (MMac m) -> arrived c (mm_core m) -> mm_rcpts m = Some rs' -> recipients_arrive rs rs' ->
     decode X expected false v = Ok (MMac m)).
Proof.
  intros X e v c rs HN. split.
  - intros m NE HD HA HR. apply (C132_strict_receiver X e v _ (c :: map r_core rs) HD); [| |exact HN].
    + cbn [recipients_read]. intros E. rewrite E in HR. inversion HR. subst rs. apply NE. reflexivity.
    + cbn [parts]. constructor; [exact HA|]. apply recipients_parts. exact HR.
  - intros m rs' HD HA E HR. apply (C132_strict_receiver X e v _ (c :: map r_core rs) HD); [| |exact HN].
    + cbn [recipients_read]. rewrite E. discriminate.
    + cbn [parts]. rewrite E. constructor; [exact HA|]. apply recipients_parts. exact HR.
Qed.
Print Assumptions C132_recipients.

(** The round trips with direct recipients, to a strict receiver. *)
Theorem C132_mac_trip : forall X n m rs n' m2 b kr e, law_wrap_some X -> law_oaep_some X ->
  headers_ok X (mm_core m) -> mm_rcpts m = Some rs -> Forall (fun r => headers_ok X (r_core r) /\ simple r) rs -> Forall direct rs ->
  rs <> [] -> shares (mm_core m) (Cls FOps 10) kr -> e = None \/ e = Some 97%N ->
  macm_encode X n m true true = ((n', m2), Ok b) -> Forall no_unknown (mm_core m :: map r_core rs) ->
  exists m' rs', decode X e false (VBytes b) = Ok (MMac m') /\ arrived (mm_core m) (mm_core m') /\
    payload (mm_core m') = payload (mm_core m) /\ mm_rcpts m' = Some rs' /\ recipients_arrive rs rs' /\
    macm_verify_tag X (MacMsg (equip (mm_core m') kr (aad (mm_core m))) (mm_tag m') (mm_rcpts m')) = Ok true.
Proof.
  intros X n m rs n' m2 b kr e L1 L2 HH ER HR HD NE HS HE HB HN.
  destruct (C15_mac_direct_round_trip_partial X n m rs n' m2 b kr e L1 L2 HH ER HR HD NE HS HE HB) as (m' & rs' & D & A & P & R & RA & V).
  exists m', rs'. split; [|repeat (split; [assumption|]); assumption].
  exact (proj2 (C132_recipients X e _ _ rs HN) m' rs' D A R RA).
Qed.
Print Assumptions C132_mac_trip.

Theorem C132_enc_trip : forall X n m n' m2 b kr e, law_gcm X -> law_ccm X -> law_wrap_some X -> law_oaep_some X ->
  headers_ok X (e_core m) -> Forall (fun r => headers_ok X (r_core r) /\ simple r) (e_rcpts m) -> Forall direct (e_rcpts m) ->
  e_rcpts m <> [] -> shares (e_core m) (Cls FOps 4) kr -> e = None \/ e = Some 96%N ->
  encm_encode X n m true true = ((n', m2), Ok b) -> Forall no_unknown (e_core m :: map r_core (e_rcpts m)) ->
  exists m' pl, decode X e false (VBytes b) = Ok (MEnc m') /\ arrived (e_core m) (e_core m') /\
    recipients_arrive (e_rcpts m) (e_rcpts m') /\ payload (e_core m) = Some pl /\
    forall r', In r' (e_rcpts m') ->
      snd (encm_decrypt X (EncMsg (equip (e_core m') kr (aad (e_core m))) (e_rcpts m')) r') = Ok pl.
Proof.
  intros X n m n' m2 b kr e L1 L2 L3 L4 HH HR HD NE HS HE HB HN.
  destruct (C16_enc_direct_round_trip_partial X n m n' m2 b kr e L1 L2 L3 L4 HH HR HD NE HS HE HB) as (m' & pl & D & A & RA & P & V).
  exists m', pl. split; [|repeat (split; [assumption|]); assumption].
  exact (proj1 (C132_recipients X e _ _ _ HN) m' NE D A RA).
Qed.
Print Assumptions C132_enc_trip.

(** The messages of C15 and C16 have no unknown parameters. *)
Ltac known := intros k v H; cbn in H; decompose [or] H; clear H;
  repeat match goal with E : False |- _ => destruct E | E : (_, _) = (_, _) |- _ => injection E as <- <- end;
  match goal with |- ~ unknown_attr _ ?a => let w := eval vm_compute in (int_value a) in
    match w with Some ?z => intros U; eapply (U z eq_refl (Cls FHdr z)); [in_list|reflexivity] end end.
Example C132_mac_example : exists n' m2 b m',
  Forall no_unknown (mm_core (ex_mac [ex_direct 0; ex_direct 1]) :: map r_core [ex_direct 0; ex_direct 1]) /\
  macm_encode toy 0 (ex_mac [ex_direct 0; ex_direct 1]) true true = ((n', m2), Ok b) /\
  decode toy None false (VBytes b) = Ok (MMac m').
Proof.
  do 4 eexists. split; [repeat (apply Forall_cons; [known|]); apply Forall_nil|]. split; [vm_compute; reflexivity|vm_compute; reflexivity].
Qed.

Example C132_enc_example : exists n' m2 b m',
  Forall no_unknown (e_core (ex_enc [ex_direct 0; ex_direct 1]) :: map r_core [ex_direct 0; ex_direct 1]) /\
  encm_encode toy 0 (ex_enc [ex_direct 0; ex_direct 1]) true true = ((n', m2), Ok b) /\
  decode toy None false (VBytes b) = Ok (MEnc m').
Proof.
  do 4 eexists. split; [repeat (apply Forall_cons; [known|]); apply Forall_nil|]. split; [vm_compute; reflexivity|vm_compute; reflexivity].
Qed.
