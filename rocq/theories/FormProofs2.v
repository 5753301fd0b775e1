(** Consequences for text, messages and keys. *)
From Coq Require Import NArith ZArith Bool Lia.
From Coq Require Import Init.Byte List.
From Verif Require Import Bytes BytesProofs Value ValueProofs Cbor CborProofs Crypto Keys Messages Recipients SpecForm Utf8Proofs FormProofs.
Import ListNotations.
Local Open Scope N_scope.

Lemma loads_read : forall c b, encoding c b -> blen b < max_len -> loads (VBytes b) = lift false c.
Proof.
  intros c b HE HL. cbn [loads]. unfold loads_bytes. pose proof (well_formed_read c b [] HE HL) as HR. rewrite app_nil_r in HR. rewrite HR. reflexivity.
Qed.

Lemma same_message : forall X expected allow c b b', encoding c b -> encoding c b' -> blen b < 2 ^ 63 -> blen b' < 2 ^ 63 ->
  decode X expected allow (VBytes b) = decode X expected allow (VBytes b') /\
  key_decode X (VBytes b) = key_decode X (VBytes b').
Proof.
  intros X expected allow c b b' HE HE' HL HL'. change (2 ^ 63) with max_len in *.
  assert (E : loads (VBytes b) = loads (VBytes b')) by (rewrite (loads_read c b HE HL), (loads_read c b' HE' HL'); reflexivity).
  unfold decode, key_decode. rewrite E. split; reflexivity.
Qed.

Lemma text_exact : forall s h rest, header 3 (blen s) h -> blen s < 2 ^ 63 ->
  (text s -> decode_item (h ++ s ++ rest) = Ok (CText s, rest)) /\
  (~ text s -> exists e, decode_item (h ++ s ++ rest) = Err e).
Proof.
  intros s h rest HH HL. change (2 ^ 63) with max_len in HL. destruct (header_arg _ _ _ HH ltac:(lia)) as (b0 & q & -> & HM & HA).
  assert (E : decode_item ((b0 :: q) ++ s ++ rest) = if utf8_valid s then Ok (CText s, rest) else Err CBORDecodeValueError).
  { unfold decode_item. replace (fuel_for ((b0 :: q) ++ s ++ rest)) with (S (2 * length ((b0 :: q) ++ s ++ rest))) by (unfold fuel_for; lia).
    cbn [app]. rewrite dec_S, (body_s true) by exact HM. unfold dec_string. rewrite HA. cbn [bind]. unfold take_string.
    replace (max_len <=? blen s) with false by (symmetry; apply N.leb_gt; exact HL). rewrite take_app. cbn [bind andb]. destruct (utf8_valid s); reflexivity. }
  rewrite E. split.
  - intros HT. rewrite (proj2 (utf8_exact s) HT). reflexivity.
  - intros HT. destruct (utf8_valid s) eqn:EV; [destruct HT; apply utf8_exact; exact EV|]. eexists. reflexivity.
Qed.

Lemma malformed :
  (forall c, ~ encoding c [x81; xff]) /\ loads_bytes [x81; xff] = Ok (VList [VBreak]) /\
  (forall c, ~ encoding c [xf8; x01]) /\ loads_bytes [xf8; x01] = Ok (VSimple 1).
Proof.
  assert (HB : forall c b, encoding c b -> blen b < max_len -> decode_item b = Ok (c, [])) by (intros c b HE HL; rewrite <- (app_nil_r b) at 1; apply well_formed_read; assumption).
  split; [|split; [reflexivity|split; [|reflexivity]]].
  - intros c HE. pose proof (HB _ _ HE ltac:(reflexivity)) as HD. vm_compute in HD. injection HD as <-. inversion HE as [| | | | | |l h b HH HS E1 E2|l b HS E1 E2| | | | | | | | |]; subst.
    + inversion HS as [|c l b1 b2 HC HN E3 E4]; subst. destruct (item_reads _ _ HC) as (HNB & _). apply HNB. reflexivity.
  - intros c HE. pose proof (HB _ _ HE ltac:(reflexivity)) as HD. vm_compute in HD. injection HD as <-. inversion HE as [| | | | | | | | | | | |n Hn E1 E2|n Hn E1 E2| | |]. subst. lia.
Qed.
