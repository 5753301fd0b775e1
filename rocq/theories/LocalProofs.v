(** Local attributes have no influence on encodings without key agreement. *)
From Coq Require Import NArith ZArith Bool String Lia.
From Coq Require Import Init.Byte List.
From Verif Require Import Bytes BytesProofs Value ValueProofs Cbor CborProofs SpecData DataProofs Registry
  RegistryProofs Crypto Keys Algorithms Headers Messages Recipients SpecRegistry SpecHdr HdrProofs SpecRcpt RcptProofs RcptTrip4 SpecRecv.
Import ListNotations.
Local Open Scope result_scope.

Section Local.
Variable X : crypto.
Variable f : N -> dict.

Lemma relocate_classes : forall l, map r_class (map (relocate f) l) = map r_class l.
Proof. intros l. rewrite map_map. apply map_ext. intros []. reflexivity. Qed.

Lemma kw_encrypt_local : forall n c lo subs, kw_encrypt X n (with_local c lo) (map (relocate f) subs) = kw_encrypt X n c subs.
Proof.
  intros n c lo subs. unfold kw_encrypt.
  assert (E : kw_kek_encrypt (with_local c lo) (map (relocate f) subs) = kw_kek_encrypt c subs).
  { unfold kw_kek_encrypt. cbn [ckey with_local]. destruct (ckey c); [reflexivity|]. destruct subs as [|s subs]; [reflexivity|].
    rewrite (verify_map _ _ (relocate_classes (s :: subs))), !(has_class_map _ _ _ (relocate_classes (s :: subs))). reflexivity. }
  rewrite E. reflexivity.
Qed.

(** Encoding commutes with [relocate]. *)
Definition moved1 (y : (N * rcpt) * result pyval) : (N * rcpt) * result pyval := ((fst (fst y), relocate f (snd (fst y))), snd y).
Definition moved (y : (N * list rcpt) * result (list pyval)) : (N * list rcpt) * result (list pyval) :=
  ((fst (fst y), map (relocate f) (snd (fst y))), snd y).

Lemma encode_local : forall k l, (list_sum (map rsize l) < k)%nat -> forallb no_agreement l = true ->
  forall n, rcpts_encode X n (map (relocate f) l) = moved (rcpts_encode X n l).
Proof.
  induction k as [|k IH]; [lia|]. induction l as [|r l IHl]; intros HS HN n; [reflexivity|].
  cbn [map rcpts_encode]. cbn [forallb] in HN. apply andb_true_iff in HN as [HN1 HN2].
  assert (HS' : (list_sum (map rsize l) < S k)%nat /\ (rsize r < S k)%nat) by (cbn in HS |- *; fold (list_sum (map rsize l)) in HS; lia).
  assert (HR : rcpt_encode X n (relocate f r) = moved1 (rcpt_encode X n r)).
  { destruct r as [id rc c ctx subs]. cbn [relocate]. cbn [no_agreement] in HN1. destruct rc; try discriminate.
    - cbn [rcpt_encode]. unfold moved1. cbn [fst snd relocate]. rewrite map_length. reflexivity.
    - rewrite !encode_kw. rewrite kw_encrypt_local. change (phdr_encoded (with_local c (f id))) with (phdr_encoded c).
      destruct (bind (phdr_encoded c) _) as [[p w]|e]; [|reflexivity]. unfold finish. cbn [uhdr with_local].
      destruct subs as [|s subs]; [reflexivity|]. change (map (relocate f) (s :: subs)) with (map (relocate f) (s :: subs)).
      rewrite (IH (s :: subs)); [|cbn [rsize] in HS'; lia|exact HN1]. cbn [map].
      destruct (rcpts_encode X (N.succ n) (s :: subs)) as [[n' s'] [vs|e]]; reflexivity. }
  rewrite HR. destruct (rcpt_encode X n r) as [[n1 r'] [v|e]]; cbn [moved1 fst snd]; [|reflexivity].
  rewrite (IHl (proj1 HS') HN2). destruct (rcpts_encode X n1 l) as [[n2 l2] [vs|e]]; reflexivity.
Qed.

Lemma rcpts_encode_local : forall l n, forallb no_agreement l = true -> rcpts_encode X n (map (relocate f) l) = moved (rcpts_encode X n l).
Proof. intros l n H. apply (encode_local (S (list_sum (map rsize l)))); [lia|exact H]. Qed.

Lemma rcpt_encrypt_local : forall n r, no_agreement r = true ->
  rcpt_encrypt X n (relocate f r) = (relocate f (fst (rcpt_encrypt X n r)), snd (rcpt_encrypt X n r)).
Proof.
  intros n [id rc c ctx subs] H. cbn [no_agreement] in H. destruct rc; try discriminate; cbn [relocate rcpt_encrypt fst snd]; [reflexivity|].
  rewrite kw_encrypt_local. reflexivity.
Qed.

Lemma no_agreement_encrypt : forall n r, no_agreement r = true -> fst (rcpt_encrypt X n r) = r.
Proof. intros n [id rc c ctx subs] H. cbn [no_agreement] in H. destruct rc; try discriminate; reflexivity. Qed.

Lemma cek_loop_local : forall l n kb, forallb no_agreement l = true ->
  cek_loop X n kb (map (relocate f) l) =
  ((fst (fst (cek_loop X n kb l)), map (relocate f) (snd (fst (cek_loop X n kb l)))), snd (cek_loop X n kb l)) /\
  forallb no_agreement (snd (fst (cek_loop X n kb l))) = true.
Proof.
  induction l as [|r l IH]; intros n kb H; [split; reflexivity|]. cbn [forallb] in H. apply andb_true_iff in H as [H1 H2]. cbn [map cek_loop].
  set (y := match payload (r_core r) with
            | Some [] => (r_with r (with_payload (r_core r) (match kb with VBytes b => Some b | _ => None end)), kb)
            | p => (r, vopt p) end).
  assert (E : match payload (r_core (relocate f r)) with
              | Some [] => (r_with (relocate f r) (with_payload (r_core (relocate f r)) (match kb with VBytes b => Some b | _ => None end)), kb)
              | p => (relocate f r, vopt p) end = (relocate f (fst y), snd y) /\ no_agreement (fst y) = true).
  { unfold y. destruct r as [id rc c ctx subs]. cbn [relocate r_core r_with with_local payload]. destruct (payload c) as [[|]|]; split; try reflexivity; exact H1. }
  destruct E as [-> HY]. destruct y as [r1 kb1]. cbn [fst snd] in *. rewrite (rcpt_encrypt_local n r1 HY).
  pose proof (no_agreement_encrypt n r1 HY) as HF. destruct (rcpt_encrypt X n r1) as [r2 [w|e]]; cbn [fst snd] in *; subst r2.
  - destruct (IH (N.succ n) kb1 H2) as [E1 E2]. rewrite E1. destruct (cek_loop X (N.succ n) kb1 l) as [[n' l'] x]. cbn [fst snd] in *.
    split; [reflexivity|]. cbn [forallb]. rewrite HY, E2. reflexivity.
  - cbn [fst snd]. split; [reflexivity|]. cbn [forallb]. rewrite HY, H2. reflexivity.
Qed.

Local Notation relocate_enc := (SpecRecv.relocate_enc f).

Lemma no_agree_class : forall l, forallb no_agreement l = true -> has_class RAgree l = false /\ has_class RAgreeKW l = false.
Proof.
  induction l as [|[id rc c ctx subs] l IH]; intros H; [split; reflexivity|]. cbn [forallb] in H. apply andb_true_iff in H as [H1 H2].
  destruct (IH H2) as [A B]. unfold has_class in *. cbn [existsb r_class]. rewrite A, B. cbn [no_agreement] in H1. destruct rc; try discriminate; split; reflexivity.
Qed.

Lemma encrypt_local : forall n m lo, forallb no_agreement (e_rcpts m) = true ->
  encm_encrypt X n (relocate_enc m lo) =
  ((fst (fst (encm_encrypt X n m)), relocate_enc (snd (fst (encm_encrypt X n m))) lo), snd (encm_encrypt X n m)) /\
  forallb no_agreement (e_rcpts (snd (fst (encm_encrypt X n m)))) = true.
Proof.
  intros n [c rs] lo H. unfold encm_encrypt, SpecRecv.relocate_enc. cbn [e_core e_rcpts] in *.
  rewrite (verify_map _ _ (relocate_classes rs)), !(has_class_map _ _ _ (relocate_classes rs)). destruct (no_agree_class rs H) as [-> ->].
  change (get_attr (with_local c lo) Algorithm) with (get_attr c Algorithm).
  destruct (bind (get_attr c Algorithm) _) as [t|e]; [|split; [reflexivity|exact H]].
  destruct (has_class RDirect rs); [split; [reflexivity|exact H]|]. destruct (has_class RKeyWrap rs || false); [|split; [reflexivity|exact H]].
  destruct (get_key_length t) as [len|e]; [|split; [reflexivity|exact H]].
  destruct (cek_loop_local rs (N.succ n) (VBytes (x_urandom X n len)) H) as [-> HN].
  destruct (cek_loop X _ _ rs) as [[n' rs'] [kb|e]]; cbn [fst snd] in *; [|split; [reflexivity|exact HN]].
  destruct (sym_with kb t _) as [k|e]; split; try reflexivity; exact HN.
Qed.

Theorem enc_encode_local : forall n m lo tag enc, forallb no_agreement (e_rcpts m) = true ->
  snd (encm_encode X n (relocate_enc m lo) tag enc) = snd (encm_encode X n m tag enc).
Proof.
  intros n m lo tag enc H. unfold encm_encode. change (phdr_encoded (e_core (relocate_enc m lo))) with (phdr_encoded (e_core m)).
  destruct (phdr_encoded (e_core m)) as [p|]; [|reflexivity].
  assert (HR : forall n1 m1 b, forallb no_agreement (e_rcpts m1) = true ->
    snd (let c := e_core (relocate_enc m1 lo) in let base := [VBytes p; VDict (uhdr c); b] in
      match e_rcpts (relocate_enc m1 lo) with
      | [] => ((n1, relocate_enc m1 lo), emit c 96 tag base)
      | rs =>
        match get_attr c Algorithm with
        | Err e => ((n1, relocate_enc m1 lo), Err e)
        | Ok _ =>
          match rcpts_encode X n1 rs with
          | ((n2, rs'), Err e) => ((n2, EncMsg c rs'), Err e)
          | ((n2, rs'), Ok vs) => ((n2, EncMsg c rs'), emit c 96 tag (base ++ [VList vs]))
          end
        end
      end) =
    snd (let c := e_core m1 in let base := [VBytes p; VDict (uhdr c); b] in
      match e_rcpts m1 with
      | [] => ((n1, m1), emit c 96 tag base)
      | rs =>
        match get_attr c Algorithm with
        | Err e => ((n1, m1), Err e)
        | Ok _ =>
          match rcpts_encode X n1 rs with
          | ((n2, rs'), Err e) => ((n2, EncMsg c rs'), Err e)
          | ((n2, rs'), Ok vs) => ((n2, EncMsg c rs'), emit c 96 tag (base ++ [VList vs]))
          end
        end
      end)).
  { intros n1 [c1 rs1] b HN. cbn [e_core e_rcpts SpecRecv.relocate_enc] in *. cbv zeta. destruct rs1 as [|r rs1]; [reflexivity|].
    change (get_attr (with_local c1 lo) Algorithm) with (get_attr c1 Algorithm). cbn [map]. change (relocate f r :: map (relocate f) rs1) with (map (relocate f) (r :: rs1)).
    destruct (get_attr c1 Algorithm) as [a|]; [|reflexivity]. rewrite (rcpts_encode_local (r :: rs1) n1 HN).
    destruct (rcpts_encode X n1 (r :: rs1)) as [[n2 rs2] [vs|e]]; reflexivity. }
  destruct enc.
  - destruct (encrypt_local n m lo H) as [-> HN]. destruct (encm_encrypt X n m) as [[n1 m1] [ct|e]]; cbn [fst snd bind] in *; [|reflexivity].
    apply HR. exact HN.
  - apply HR. exact H.
Qed.

Local Notation relocate_mac := (SpecRecv.relocate_mac f).

(** What [macm_encode] does once the tag is known. *)
Definition mac_rest (p : bytes) (tag : bool) (n1 : N) (m1 : macmsg) (t : result (list pyval)) : (N * macmsg) * result bytes :=
  match t with
  | Err e => ((n1, m1), Err e)
  | Ok tl =>
    let c := mm_core m1 in
    let base := [VBytes p; VDict (uhdr c); vopt (payload c)] ++ tl in
    match mm_rcpts m1 with
    | None => ((n1, m1), Err TypeError)
    | Some [] => ((n1, m1), emit c 97 tag base)
    | Some rs =>
      match get_attr c Algorithm with
      | Err e => ((n1, m1), Err e)
      | Ok _ =>
        match rcpts_encode X n1 rs with
        | ((n2, rs'), Err e) => ((n2, MacMsg c (mm_tag m1) (Some rs')), Err e)
        | ((n2, rs'), Ok vs) =>
          ((n2, MacMsg c (mm_tag m1) (Some rs')), emit c 97 tag (base ++ [VList vs]))
        end
      end
    end
  end.

Lemma mac_encode_rest : forall n m tag mac, macm_encode X n m tag mac =
  match phdr_encoded (mm_core m) with
  | Err e => ((n, m), Err e)
  | Ok p => if mac then let '((n1, m1), x) := macm_compute_tag X n m in mac_rest p tag n1 m1 (b <- x ;; Ok [VBytes b])
            else mac_rest p tag n m (Ok [])
  end.
Proof.
  intros n m tag mac. unfold macm_encode. destruct (phdr_encoded (mm_core m)); [|reflexivity].
  destruct mac; [|reflexivity]. destruct (macm_compute_tag X n m) as [[n1 m1] x]. reflexivity.
Qed.

Lemma mac_rest_local : forall p tag n1 m1 rs lo t, mm_rcpts m1 = Some rs -> forallb no_agreement rs = true ->
  snd (mac_rest p tag n1 (relocate_mac m1 lo) t) = snd (mac_rest p tag n1 m1 t).
Proof.
  intros p tag n1 [c t1 o] rs lo t E H. cbn [mm_rcpts] in E. subst o. unfold mac_rest, SpecRecv.relocate_mac. destruct t as [tl|]; [|reflexivity].
  cbn [mm_core mm_rcpts mm_tag option_map]. destruct rs as [|r rs]; [reflexivity|].
  change (get_attr (with_local c lo) Algorithm) with (get_attr c Algorithm). destruct (get_attr c Algorithm) as [a|]; [|reflexivity].
  rewrite (rcpts_encode_local (r :: rs) n1 H). cbn [map].
  destruct (rcpts_encode X n1 (r :: rs)) as [[n2 rs2] [vs|e]]; reflexivity.
Qed.

Lemma tag_local : forall n m rs lo, mm_rcpts m = Some rs -> forallb no_agreement rs = true ->
  macm_compute_tag X n (relocate_mac m lo) =
  ((fst (fst (macm_compute_tag X n m)), relocate_mac (snd (fst (macm_compute_tag X n m))) lo), snd (macm_compute_tag X n m)) /\
  exists rs', mm_rcpts (snd (fst (macm_compute_tag X n m))) = Some rs' /\ forallb no_agreement rs' = true.
Proof.
  intros n [c t o] rs lo E H. cbn [mm_rcpts] in E. subst o. unfold macm_compute_tag. cbn [mm_core mm_rcpts mm_tag SpecRecv.relocate_mac option_map].
  change (get_attr (with_local c lo) Algorithm) with (get_attr c Algorithm).
  rewrite (verify_map _ _ (relocate_classes rs)), !(has_class_map _ _ _ (relocate_classes rs)). destruct (no_agree_class rs H) as [-> ->].
  destruct (get_attr c Algorithm) as [a|]; [|split; [reflexivity|exists rs; auto]].
  destruct (verify_recipients rs); [|split; [reflexivity|exists rs; auto]].
  destruct (has_class RDirect rs).
  { unfold mac_super_compute. cbn [mm_core mm_rcpts mm_tag SpecRecv.relocate_mac option_map]. change (mac_compute X "MAC" (with_local c lo)) with (mac_compute X "MAC" c).
    destruct (mac_compute X "MAC" c); (split; [reflexivity|exists rs; auto]). }
  destruct (has_class RKeyWrap rs || false); [|split; [reflexivity|exists rs; auto]].
  destruct (get_key_length a) as [len|]; [|split; [reflexivity|exists rs; auto]].
  destruct (cek_loop_local rs (N.succ n) (VBytes (x_urandom X n len)) H) as [-> HN].
  destruct (cek_loop X _ _ rs) as [[n' rs'] [kb|e]]; cbn [fst snd] in *; (split; [reflexivity|exists rs'; auto]).
Qed.

Theorem mac_encode_local : forall n m rs lo tag mac, mm_rcpts m = Some rs -> forallb no_agreement rs = true ->
  snd (macm_encode X n (relocate_mac m lo) tag mac) = snd (macm_encode X n m tag mac).
Proof.
  intros n m rs lo tag mac E H. rewrite !mac_encode_rest.
  change (phdr_encoded (mm_core (relocate_mac m lo))) with (phdr_encoded (mm_core m)).
  destruct (phdr_encoded (mm_core m)) as [p|]; [|reflexivity]. destruct mac; [|exact (mac_rest_local _ _ _ _ _ _ _ E H)].
  destruct (tag_local n m rs lo E H) as [-> (rs' & E' & H')]. destruct (macm_compute_tag X n m) as [[n1 m1] x]. cbn [fst snd] in *.
  exact (mac_rest_local _ _ _ _ _ _ _ E' H').
Qed.

Lemma signers_local : forall g p lo l seed d, signers_encode X seed (Some (with_local p lo)) (map (fun s => with_local s (g s)) l) d = signers_encode X seed (Some p) l d.
Proof.
  intros g p lo. induction l as [|s l IH]; intros seed d; [reflexivity|]. cbn [map signers_encode]. rewrite IH. reflexivity.
Qed.

Lemma sign_local : forall seed c l lo g tag d,
  sign_encode X seed (SignMsg (with_local c lo) (map (fun s => with_local s (g s)) l)) tag d = sign_encode X seed (SignMsg c l) tag d.
Proof.
  intros seed c l lo g tag d. unfold sign_encode. cbn [sm_core sm_signers]. destruct l as [|s l]; [reflexivity|].
  cbn [map]. change (with_local s (g s) :: map (fun s => with_local s (g s)) l) with (map (fun s => with_local s (g s)) (s :: l)).
  rewrite signers_local. reflexivity.
Qed.

End Local.
