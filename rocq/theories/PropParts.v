(** C94, and C28, C30 and C56 for messages with signers or recipients.

    Vocabulary: SpecParts.v ([part_on_wire], [kept]), SpecMsg.v ([headers_ok], [arrived]),
    SpecRcptTrip.v ([simple]). *)
From Coq Require Import NArith ZArith Bool String.
From Coq Require Import Init.Byte List.
From Verif Require Import Bytes Value Cbor SpecData Registry Crypto Toy Keys Algorithms Headers Messages Recipients
  SpecRegistry SpecKeys SpecCrypto SpecAlg SpecHdr SpecTrip SpecMsg SpecRcpt SpecRcptTrip SpecParts ForwardProofs PartProofs
  PropHdr PropMsg PropRcpt PropRcptTrip.
Import ListNotations.

(** ** C94: how signers and recipients write their algorithms *)

(** The algorithm in the protected headers of a recipient is written as the recipient says,
    the one in its unprotected headers as the message says. *)
Theorem C94_enc_partial : forall X n m encrypt s b, law_wrap_some X -> law_oaep_some X ->
  headers_ok X (e_core m) -> Forall (fun r => headers_ok X (r_core r) /\ simple r) (e_rcpts m) -> e_rcpts m <> [] ->
  encm_encode X n m true encrypt = (s, Ok b) ->
  exists p d body ws, loads_bytes b = Ok (VTag 96 (VList [VBytes p; VDict d; body; VList ws])) /\
    Forall2 (fun r w => part_on_wire (tstr (r_core r)) (tstr (e_core m)) (r_core r) w) (e_rcpts m) ws.
Proof. exact enc_parts. Qed.
Print Assumptions C94_enc_partial.

Theorem C94_mac_partial : forall X n m rs s b, law_wrap_some X -> law_oaep_some X -> headers_ok X (mm_core m) ->
  mm_rcpts m = Some rs -> Forall (fun r => headers_ok X (r_core r) /\ simple r) rs -> rs <> [] ->
  macm_encode X n m true true = (s, Ok b) ->
  exists p d body t ws, loads_bytes b = Ok (VTag 97 (VList [VBytes p; VDict d; body; VBytes t; VList ws])) /\
    Forall2 (fun r w => part_on_wire (tstr (r_core r)) (tstr (mm_core m)) (r_core r) w) rs ws.
Proof. exact mac_parts. Qed.
Print Assumptions C94_mac_partial.

Theorem C94_sign_partial : forall X seed m d b, headers_ok X (sm_core m) -> Forall (headers_ok X) (sm_signers m) -> sm_signers m <> [] ->
  sign_encode X seed m true d = Ok b ->
  exists p u body ws, loads_bytes b = Ok (VTag 98 (VList [VBytes p; VDict u; body; VList ws])) /\
    Forall2 (fun s w => part_on_wire (tstr s) (tstr (sm_core m)) s w) (sm_signers m) ws.
Proof. intros X seed m d b HO HF HN H. exact (proj1 (sign_parts X seed m d b HO HF HN H)). Qed.
Print Assumptions C94_sign_partial.

(** So a signer or recipient that says otherwise than its message never gets its unprotected
    algorithm written as it says. *)
Theorem C94_enc_refuted : forall X n m encrypt s b i r a nm, law_wrap_some X -> law_oaep_some X ->
  headers_ok X (e_core m) -> Forall (fun r => headers_ok X (r_core r) /\ simple r) (e_rcpts m) ->
  encm_encode X n m true encrypt = (s, Ok b) -> nth_error (e_rcpts m) i = Some r -> tstr (r_core r) <> tstr (e_core m) ->
  dget (uhdr (r_core r)) Algorithm = Some (VClass a) -> In (a, nm) (registered FAlg) ->
  exists p d body ws p2 d2 rest v, loads_bytes b = Ok (VTag 96 (VList [VBytes p; VDict d; body; VList ws])) /\
    nth_error ws i = Some (VList (VBytes p2 :: VDict d2 :: rest)) /\
    dget d2 (VInt 1) = Some v /\ v <> alg_item (tstr (r_core r)) a nm.
Proof.
  intros X n m enc s b i r a nm LW LO HO HF H HN HT HG HI.
  destruct (enc_parts X n m enc s b LW LO HO HF) as (p & d & body & ws & HL & HW); [intros E; rewrite E in HN; destruct i; discriminate|exact H|].
  destruct (parts_nth _ _ _ _ _ HW HN) as (w & Hw & p2 & d2 & rest & -> & _ & HU). specialize (HU a nm HI HG).
  exists p, d, body, ws, p2, d2, rest. eexists. split; [exact HL|]. split; [exact Hw|]. split; [exact HU|]. apply alg_item_other. exact HT.
Qed.
Print Assumptions C94_enc_refuted.

Theorem C94_mac_refuted : forall X n m rs s b i r a nm, law_wrap_some X -> law_oaep_some X -> headers_ok X (mm_core m) ->
  mm_rcpts m = Some rs -> Forall (fun r => headers_ok X (r_core r) /\ simple r) rs ->
  macm_encode X n m true true = (s, Ok b) -> nth_error rs i = Some r -> tstr (r_core r) <> tstr (mm_core m) ->
  dget (uhdr (r_core r)) Algorithm = Some (VClass a) -> In (a, nm) (registered FAlg) ->
  exists p d body t ws p2 d2 rest v, loads_bytes b = Ok (VTag 97 (VList [VBytes p; VDict d; body; VBytes t; VList ws])) /\
    nth_error ws i = Some (VList (VBytes p2 :: VDict d2 :: rest)) /\
    dget d2 (VInt 1) = Some v /\ v <> alg_item (tstr (r_core r)) a nm.
Proof.
  intros X n m rs s b i r a nm LW LO HO ER HF H HN HT HG HI.
  destruct (mac_parts X n m rs s b LW LO HO ER HF) as (p & d & body & t & ws & HL & HW); [intros E; rewrite E in HN; destruct i; discriminate|exact H|].
  destruct (parts_nth _ _ _ _ _ HW HN) as (w & Hw & p2 & d2 & rest & -> & _ & HU). specialize (HU a nm HI HG).
  exists p, d, body, t, ws, p2, d2, rest. eexists. split; [exact HL|]. split; [exact Hw|]. split; [exact HU|]. apply alg_item_other. exact HT.
Qed.
Print Assumptions C94_mac_refuted.

Theorem C94_sign_refuted : forall X seed m d b i s a nm, headers_ok X (sm_core m) -> Forall (headers_ok X) (sm_signers m) ->
  sign_encode X seed m true d = Ok b -> nth_error (sm_signers m) i = Some s -> tstr s <> tstr (sm_core m) ->
  dget (uhdr s) Algorithm = Some (VClass a) -> In (a, nm) (registered FAlg) ->
  exists p u body ws p2 d2 rest v, loads_bytes b = Ok (VTag 98 (VList [VBytes p; VDict u; body; VList ws])) /\
    nth_error ws i = Some (VList (VBytes p2 :: VDict d2 :: rest)) /\
    dget d2 (VInt 1) = Some v /\ v <> alg_item (tstr s) a nm.
Proof.
  intros X seed m d b i s a nm HO HF H HN HT HG HI.
  destruct (sign_parts X seed m d b HO HF) as ((p & u & body & ws & HL & HW) & _); [intros E; rewrite E in HN; destruct i; discriminate|exact H|].
  destruct (parts_nth _ _ _ _ _ HW HN) as (w & Hw & p2 & d2 & rest & -> & _ & HU). specialize (HU a nm HI HG).
  exists p, u, body, ws, p2, d2, rest. eexists. split; [exact HL|]. split; [exact Hw|]. split; [exact HU|]. apply alg_item_other. exact HT.
Qed.
Print Assumptions C94_sign_refuted.

Definition ex_text (c : core) : core := Core (phdr c) (phdr_raw c) (uhdr c) (local c) true (payload c) (aad c) (ckey c).

(** A recipient that asks for names and one that does not, in a message that does not: the
    algorithms are numbers. The other way round they are names. *)
Definition ex_names : rcpt := Rcpt 1 RKeyWrap (ex_text (r_core (ex_kw 1 (Some ex_sym) []))) (VStr []) [].
Definition ex_names_p : rcpt :=
  Rcpt 2 RAgreeKW (Core [(Algorithm, alg (-29))] None [] [(StaticKey, kval ex_pub)] true (Some []) [] None) (VStr []) [].
Lemma ex_names_ok : headers_ok toy (r_core ex_names) /\ simple ex_names.
Proof.
  split; [exact (ex_rcpt_ok (-3) (bs "A128KW") [] (Some ex_sym) [] ltac:(in_list))|].
  split; [reflexivity|eexists; split; [|reflexivity]; in_list].
Qed.
Lemma ex_names_p_ok : headers_ok toy (r_core ex_names_p) /\ simple ex_names_p.
Proof.
  split; [|split; [reflexivity|eexists; split; [|reflexivity]; in_list]].
  split; [split; [reflexivity|apply Forall_cons; [apply HO_alg; eexists (Cls FAlg (-29)), _; split; [reflexivity|in_list]|apply Forall_nil]]|].
  split; [reflexivity|apply Forall_nil].
Qed.

Example C94_enc_example : exists s b p d body p2 w2 p3 d3 w3,
  let m := ex_enc [ex_names; ex_names_p] in
  headers_ok toy (e_core m) /\ Forall (fun r => headers_ok toy (r_core r) /\ simple r) (e_rcpts m) /\
  encm_encode toy 3 m true true = (s, Ok b) /\
  loads_bytes b = Ok (VTag 96 (VList [VBytes p; VDict d; body; VList [
    VList [VBytes p2; VDict [(VInt 1, VInt (-3))]; w2]; VList [VBytes p3; VDict d3; w3]]])) /\
  loads_bytes p3 = Ok (VDict [(VInt 1, VStr (bs "ECDH_ES_A128KW"))]) /\
  tstr (e_core m) = false /\ tstr (r_core ex_names) = true.
Proof.
  do 10 eexists. split; [apply ex_enc_ok|].
  split; [apply Forall_cons; [apply ex_names_ok|apply Forall_cons; [apply ex_names_p_ok|apply Forall_nil]]|].
  split; [vm_compute; reflexivity|]. split; [vm_compute; reflexivity|]. split; [vm_compute; reflexivity|]. split; reflexivity.
Qed.

Example C94_mac_example : exists s b p d body t p2 w2,
  let m := MacMsg (ex_text (mm_core (ex_mac []))) (VBytes []) (Some [ex_direct 0]) in
  headers_ok toy (mm_core m) /\ macm_encode toy 3 m true true = (s, Ok b) /\
  loads_bytes b = Ok (VTag 97 (VList [VBytes p; VDict d; body; VBytes t; VList [VList [VBytes p2; VDict [(VInt 1, VStr (bs "DIRECT"))]; w2]]])) /\
  tstr (mm_core m) = true /\ tstr (r_core (ex_direct 0)) = false.
Proof.
  do 8 eexists. split; [exact (ex_mac_ok [])|]. split; [vm_compute; reflexivity|]. split; [vm_compute; reflexivity|]. split; reflexivity.
Qed.

(** Two signers, one with its algorithm in each map. *)
Definition ex_signer_p : core := Core [(Algorithm, alg (-7))] None [] [] true (Some []) [] (Some ex_ec2).
Definition ex_signer_u : core := Core [(KID, VBytes [x01])] None [(Algorithm, alg (-7))] [] true (Some []) [] (Some ex_ec2).
Example C94_sign_example : exists b p u body p2 d2 w2 p3 w3,
  let m := SignMsg (Core [] None [] [] false (Some (bs "hi")) [] None) [ex_signer_p; ex_signer_u] in
  headers_ok toy (sm_core m) /\ Forall (headers_ok toy) (sm_signers m) /\
  sign_encode toy 3 m true VNone = Ok b /\
  loads_bytes b = Ok (VTag 98 (VList [VBytes p; VDict u; body; VList [
    VList [VBytes p2; VDict d2; w2]; VList [VBytes p3; VDict [(VInt 1, VInt (-7))]; w3]]])) /\
  loads_bytes p2 = Ok (VDict [(VInt 1, VStr (bs "ES256"))]).
Proof.
  do 9 eexists. split; [split; [split; [reflexivity|apply Forall_nil]|split; [reflexivity|apply Forall_nil]]|].
  assert (HA : header_ok toy Algorithm (alg (-7))) by (apply HO_alg; eexists (Cls FAlg (-7)), _; split; [reflexivity|in_list]).
  split.
  - apply Forall_cons; [split; [split; [reflexivity|apply Forall_cons; [exact HA|apply Forall_nil]]|split; [reflexivity|apply Forall_nil]]|].
    apply Forall_cons; [|apply Forall_nil]. split; [split; [reflexivity|apply Forall_cons; [apply (HO_bytes toy 4); in_list|apply Forall_nil]]|].
    split; [reflexivity|apply Forall_cons; [exact HA|apply Forall_nil]].
  - split; [vm_compute; reflexivity|]. split; [vm_compute; reflexivity|]. vm_compute. reflexivity.
Qed.

(** ** C28, C30: what arrives of the headers of signers and recipients *)

Theorem C28_enc_recipients : forall X n m encrypt s b e k, law_wrap_some X -> law_oaep_some X ->
  headers_ok X (e_core m) -> Forall (fun r => headers_ok X (r_core r) /\ simple r) (e_rcpts m) -> e_rcpts m <> [] ->
  encm_encode X n m true encrypt = (s, Ok b) -> e = None \/ e = Some 96%N ->
  unknown_attr FHdr k -> (exists z, k = VInt z) \/ (exists u, k = VStr u) ->
  exists m', decode X e true (VBytes b) = Ok (MEnc m') /\
    dget (phdr (e_core m')) k = dget (phdr (e_core m)) k /\ dget (uhdr (e_core m')) k = dget (uhdr (e_core m)) k /\
    Forall2 (fun r r' => dget (phdr (r_core r')) k = dget (phdr (r_core r)) k /\ dget (uhdr (r_core r')) k = dget (uhdr (r_core r)) k)
      (e_rcpts m) (e_rcpts m').
Proof.
  intros X n m enc s b e k LW LO HO HF HN H He _ HK.
  assert (N1 : keyeq k EphemeralKey = false) by (destruct HK as [[z ->]|[u ->]]; reflexivity).
  assert (N2 : keyeq k StaticKey = false) by (destruct HK as [[z ->]|[u ->]]; reflexivity).
  destruct (enc_received X n m enc s b e LW LO HO HF HN H He) as (m' & HD & HA & _ & HR & _). exists m'. split; [exact HD|].
  destruct (arrived_kept _ _ HA k N1 N2) as [E1 E2]. split; [exact E1|]. split; [exact E2|].
  clear - HR N1 N2. induction HR as [|r r' l l' [_ HK] HR IH]; constructor; [apply HK; assumption|exact IH].
Qed.
Print Assumptions C28_enc_recipients.

Theorem C28_mac_recipients : forall X n m rs s b e k, law_wrap_some X -> law_oaep_some X -> headers_ok X (mm_core m) ->
  mm_rcpts m = Some rs -> Forall (fun r => headers_ok X (r_core r) /\ simple r) rs -> rs <> [] ->
  macm_encode X n m true true = (s, Ok b) -> e = None \/ e = Some 97%N ->
  unknown_attr FHdr k -> (exists z, k = VInt z) \/ (exists u, k = VStr u) ->
  exists m' rs', decode X e true (VBytes b) = Ok (MMac m') /\ mm_rcpts m' = Some rs' /\
    dget (phdr (mm_core m')) k = dget (phdr (mm_core m)) k /\ dget (uhdr (mm_core m')) k = dget (uhdr (mm_core m)) k /\
    Forall2 (fun r r' => dget (phdr (r_core r')) k = dget (phdr (r_core r)) k /\ dget (uhdr (r_core r')) k = dget (uhdr (r_core r)) k) rs rs'.
Proof.
  intros X n m rs s b e k LW LO HO ER HF HN H He _ HK.
  assert (N1 : keyeq k EphemeralKey = false) by (destruct HK as [[z ->]|[u ->]]; reflexivity).
  assert (N2 : keyeq k StaticKey = false) by (destruct HK as [[z ->]|[u ->]]; reflexivity).
  destruct (mac_received X n m rs s b e LW LO HO ER HF HN H He) as (m' & rs2 & rs' & HD & HA & _ & _ & ER' & HR & _). exists m', rs'.
  split; [exact HD|]. split; [exact ER'|].
  destruct (arrived_kept _ _ HA k N1 N2) as [E1 E2]. split; [exact E1|]. split; [exact E2|].
  clear - HR N1 N2. induction HR as [|r r' l l' [_ HK] HR IH]; constructor; [apply HK; assumption|exact IH].
Qed.
Print Assumptions C28_mac_recipients.

Theorem C28_signers : forall X seed m d b e k, headers_ok X (sm_core m) -> Forall (headers_ok X) (sm_signers m) -> sm_signers m <> [] ->
  sign_encode X seed m true d = Ok b -> e = None \/ e = Some 98%N ->
  unknown_attr FHdr k -> (exists z, k = VInt z) \/ (exists u, k = VStr u) ->
  exists m', decode X e true (VBytes b) = Ok (MSign m') /\
    Forall2 (fun s s' => dget (phdr s') k = dget (phdr s) k /\ dget (uhdr s') k = dget (uhdr s) k) (sm_signers m) (sm_signers m').
Proof.
  intros X seed m d b e k HO HF HN H He _ HK.
  assert (N1 : keyeq k EphemeralKey = false) by (destruct HK as [[z ->]|[u ->]]; reflexivity).
  assert (N2 : keyeq k StaticKey = false) by (destruct HK as [[z ->]|[u ->]]; reflexivity).
  destruct (proj2 (sign_parts X seed m d b HO HF HN H) e He) as (m' & HD & _ & _ & HR). exists m'. split; [exact HD|].
  clear - HR N1 N2. induction HR as [|r r' l l' HA HR IH]; constructor; [apply (arrived_kept _ _ HA); assumption|exact IH].
Qed.
Print Assumptions C28_signers.

(** Whether names or numbers were sent, the receiver's recipients and signers have the
    classes and headers of the sender's. The sender may have added ephemeral keys while
    encoding: those arrive too. *)
Theorem C30_enc_recipients : forall X n m encrypt s b e, law_wrap_some X -> law_oaep_some X ->
  headers_ok X (e_core m) -> Forall (fun r => headers_ok X (r_core r) /\ simple r) (e_rcpts m) -> e_rcpts m <> [] ->
  encm_encode X n m true encrypt = (s, Ok b) -> e = None \/ e = Some 96%N ->
  exists m', decode X e true (VBytes b) = Ok (MEnc m') /\ arrived (e_core m) (e_core m') /\
    recipients_kept (e_rcpts m) (e_rcpts m') /\ recipients_arrive (e_rcpts (snd s)) (e_rcpts m').
Proof.
  intros X n m enc s b e LW LO HO HF HN H He.
  destruct (enc_received X n m enc s b e LW LO HO HF HN H He) as (m' & HD & HA & _ & HR & HR2). exists m'. auto.
Qed.
Print Assumptions C30_enc_recipients.

Theorem C30_mac_recipients : forall X n m rs s b e, law_wrap_some X -> law_oaep_some X -> headers_ok X (mm_core m) ->
  mm_rcpts m = Some rs -> Forall (fun r => headers_ok X (r_core r) /\ simple r) rs -> rs <> [] ->
  macm_encode X n m true true = (s, Ok b) -> e = None \/ e = Some 97%N ->
  exists m' rs2 rs', decode X e true (VBytes b) = Ok (MMac m') /\ arrived (mm_core m) (mm_core m') /\
    payload (mm_core m') = payload (mm_core m) /\ mm_rcpts (snd s) = Some rs2 /\ mm_rcpts m' = Some rs' /\
    recipients_kept rs rs' /\ recipients_arrive rs2 rs'.
Proof. exact mac_received. Qed.
Print Assumptions C30_mac_recipients.

Theorem C30_signers : forall X seed m d b e, headers_ok X (sm_core m) -> Forall (headers_ok X) (sm_signers m) -> sm_signers m <> [] ->
  sign_encode X seed m true d = Ok b -> e = None \/ e = Some 98%N ->
  exists m', decode X e true (VBytes b) = Ok (MSign m') /\ arrived (sm_core m) (sm_core m') /\
    payload (sm_core m') = payload (sm_core m) /\ Forall2 arrived (sm_signers m) (sm_signers m').
Proof. intros X seed m d b e HO HF HN H. exact (proj2 (sign_parts X seed m d b HO HF HN H) e). Qed.
Print Assumptions C30_signers.

(** ** C56: encodings that are not encrypted or authenticated *)

Theorem C56_enc_recipients_partial : forall X n m s b e, law_wrap_some X -> law_oaep_some X ->
  headers_ok X (e_core m) -> Forall (fun r => headers_ok X (r_core r) /\ simple r) (e_rcpts m) -> e_rcpts m <> [] ->
  encm_encode X n m true false = (s, Ok b) -> e = None \/ e = Some 96%N ->
  exists m', decode X e true (VBytes b) = Ok (MEnc m') /\ arrived (e_core m) (e_core m') /\
    payload (e_core m') = payload (e_core m) /\ recipients_kept (e_rcpts m) (e_rcpts m').
Proof.
  intros X n m s b e LW LO HO HF HN H He.
  destruct (enc_received X n m false s b e LW LO HO HF HN H He) as (m' & HD & HA & HP & HR & _). exists m'. auto.
Qed.
Print Assumptions C56_enc_recipients_partial.

(** A COSE_Mac message with recipients that was not authenticated decodes, with its headers
    and payload, but the receiver's message has a list for a tag and no recipients. *)
Theorem C56_mac_recipients_partial : forall X n m rs s b e, law_wrap_some X -> law_oaep_some X -> headers_ok X (mm_core m) ->
  mm_rcpts m = Some rs -> rs <> [] -> Forall (fun r => headers_ok X (r_core r) /\ simple r) rs ->
  macm_encode X n m true false = (s, Ok b) -> e = None \/ e = Some 97%N ->
  exists m' l, decode X e true (VBytes b) = Ok (MMac m') /\ mm_tag m' = VList l /\ mm_rcpts m' = None /\
    arrived (mm_core m) (mm_core m') /\ payload (mm_core m') = payload (mm_core m).
Proof. exact mac_dropped. Qed.
Print Assumptions C56_mac_recipients_partial.

Example C28_C30_C56_example : exists s b s2 b2 s3 b3 m',
  let m := ex_enc [ex_names; ex_names_p] in let mm := ex_mac [ex_direct 0; ex_direct 1] in
  headers_ok toy (e_core m) /\ Forall (fun r => headers_ok toy (r_core r) /\ simple r) (e_rcpts m) /\
  headers_ok toy (mm_core mm) /\ Forall (fun r => headers_ok toy (r_core r) /\ simple r) [ex_direct 0; ex_direct 1] /\
  encm_encode toy 3 m true false = (s, Ok b) /\ macm_encode toy 3 mm true true = (s2, Ok b2) /\ macm_encode toy 3 mm true false = (s3, Ok b3) /\
  decode toy None true (VBytes b) = Ok (MEnc m') /\ length (e_rcpts m') = 2 /\
  unknown_attr FHdr (VInt (-70000)).
Proof.
  do 7 eexists. split; [apply ex_enc_ok|].
  split; [apply Forall_cons; [apply ex_names_ok|apply Forall_cons; [apply ex_names_p_ok|apply Forall_nil]]|].
  split; [exact (ex_mac_ok [])|]. split; [repeat (apply Forall_cons; [rcpt_ok|]); apply Forall_nil|].
  do 4 (split; [vm_compute; reflexivity|]). split; [reflexivity|].
  cbn [unknown_attr]. intros z E c n HI EZ. cbn [int_value] in E. injection E as <-.
  assert (HX : forallb (fun e => negb (Z.eqb (c_id (fst e)) (-70000))) (registered FHdr) = true) by (vm_compute; reflexivity).
  rewrite forallb_forall in HX. specialize (HX _ HI). cbn [fst] in HX. rewrite EZ in HX. discriminate.
Qed.
