(** C96: every well-formed CBOR encoding is understood, whatever form it takes.

    [encoding c b] (SpecForm.v, from RFC 8949) says that [b] is a well-formed encoding of the
    item [c]: lengths and arguments need not be as short as possible, and strings, arrays and
    maps may be of indefinite length. [text b] says that [b] is UTF-8 (RFC 3629);
    [number w bits] is the number a bit pattern of the given precision stands for (IEEE 754). *)
From Coq Require Import NArith ZArith Bool String.
From Coq Require Import Init.Byte List.
From Verif Require Import Bytes Value Cbor Crypto Toy Keys Messages Recipients SpecForm Utf8Proofs FloatProofs FormProofs FormProofs2.
Import ListNotations.
Local Open Scope string_scope.
Local Open Scope list_scope.

(** Every well-formed encoding is read as the item it encodes, and nothing more of the input
    is consumed. No Python object has 2^63 bytes or more. *)
Theorem C96_read : forall c b rest, encoding c b -> (blen b < 2 ^ 63)%N -> decode_item (b ++ rest) = Ok (c, rest).
Proof. exact well_formed_read. Qed.
Print Assumptions C96_read.

(** So a message or key means the same in whichever form its items are encoded. *)
Theorem C96_same_message : forall X expected allow c b b', encoding c b -> encoding c b' -> (blen b < 2 ^ 63)%N -> (blen b' < 2 ^ 63)%N ->
  decode X expected allow (VBytes b) = decode X expected allow (VBytes b') /\
  key_decode X (VBytes b) = key_decode X (VBytes b').
Proof. exact same_message. Qed.
Print Assumptions C96_same_message.

(** What is written is well-formed. *)
Theorem C96_written : forall fullname h v b, dumps fullname h v = Ok b -> exists c, lower fullname h v = Ok c /\ encoding c b.
Proof. exact written_well_formed. Qed.
Print Assumptions C96_written.

(** Text strings are accepted exactly when they are UTF-8. *)
Theorem C96_text : forall s h rest, header 3 (blen s) h -> (blen s < 2 ^ 63)%N ->
  (text s -> decode_item (h ++ s ++ rest) = Ok (CText s, rest)) /\
  (~ text s -> exists e, decode_item (h ++ s ++ rest) = Err e).
Proof. exact text_exact. Qed.
Print Assumptions C96_text.

(** Half- and single-precision numbers are read as the equal Python float. *)
Theorem C96_float : forall w bits, (bits < 256 ^ N.of_nat (fbytes w))%N ->
  exists d, lift false (CFloat w bits) = Ok (VFloat d) /\ number F64 d = number w bits.
Proof. intros w bits H. exists (widen_w w bits). split; [reflexivity|]. exact (widened w bits H). Qed.
Print Assumptions C96_float.

(** The other way round, an item without "break" and without simple values below 32 is read
    only from its well-formed encodings. *)
Theorem C96_only_partial : forall l c r, decode_item l = Ok (c, r) -> regular c -> exists b, l = b ++ r /\ encoding c b.
Proof. exact regular_well_formed. Qed.
Print Assumptions C96_only_partial.

(** Not so in general: an array of one item holding the stop code, and a simple value below
    24 in two bytes, are malformed and nevertheless accepted, at the top level and so inside
    any message. *)
Theorem C96_malformed_refuted :
  (forall c, ~ encoding c [x81; xff]) /\ loads_bytes [x81; xff] = Ok (VList [VBreak]) /\
  (forall c, ~ encoding c [xf8; x01]) /\ loads_bytes [xf8; x01] = Ok (VSimple 1).
Proof. exact malformed. Qed.
Print Assumptions C96_malformed_refuted.

(** One map in three forms: as written by the library, with long arguments, and with
    everything of indefinite length. *)
Example C96_example :
  let c := CMap [(CUint 1, CArr [CText (bs "ab"); CBytes (bs "xy")])] in
  let b1 := [xa1; x01; x82; x62; x61; x62; x42; x78; x79] in
  let b2 := [xb8; x01; x18; x01; x99; x00; x02; x7a; x00; x00; x00; x02; x61; x62; x58; x02; x78; x79] in
  let b3 := [xbf; x01; x9f; x7f; x61; x61; x61; x62; xff; x5f; x41; x78; x40; x41; x79; xff; xff; xff] in
  (encoding c b1 /\ encoding c b2 /\ encoding c b3) /\ decode_item b3 = Ok (c, []) /\ regular c.
Proof.
  cbv zeta. split; [|split; [vm_compute; reflexivity|repeat split]].
  assert (HT : forall b, utf8_valid b = true -> text b) by (intros b H; apply utf8_exact; exact H).
  assert (W : forall b c, decode_item b = Ok (c, []) -> regular c -> encoding c b)
    by (intros b c H HR; destruct (regular_well_formed _ _ _ H HR) as (q & E & HE); rewrite app_nil_r in E; subst q; exact HE).
  split; [|split]; apply W; try (vm_compute; reflexivity); repeat split.
Qed.

(** Surrogates and overlong forms are not text. *)
Example C96_text_example :
  text [xe2; x82; xac] /\ ~ text [xed; xa0; x80] /\ ~ text [xc0; x80] /\ ~ text [xf4; x90; x80; x80].
Proof.
  split; [exists [8364%N]; split; [repeat constructor|reflexivity]|].
  repeat split; intros H; apply utf8_exact in H; discriminate.
Qed.

Example C96_float_example : number F16 15360 = number F64 4607182418800017408 /\ widen_w F16 15360 = 4607182418800017408%N /\
  number F16 1 = number F64 (widen_w F16 1) /\ number F16 1 <> number F16 2.
Proof. split; [vm_compute; reflexivity|]. split; [vm_compute; reflexivity|]. split; [vm_compute; reflexivity|]. vm_compute. discriminate. Qed.
