(** A toy instance of the primitives: it shows that the laws in SpecCrypto.v can be met
    together, and it is what the examples compute with. It has no security. *)
From Coq Require Import NArith ZArith Bool Lia.
From Coq Require Import Init.Byte List.
From Verif Require Import Bytes BytesProofs Value Crypto SpecCrypto.
Import ListNotations.
Local Open Scope N_scope.

(** [n] bytes that depend on all of [l]. *)
Definition mix (n : nat) (l : bytes) : bytes := to_be n ((of_be l * 31 + blen l) mod (N.shiftl 1 (8 * N.of_nat n) - 1)).

Definition toy_seal (n : nat) (key msg : bytes) : result bytes := Ok (msg ++ mix n (key ++ msg)).

Definition toy_open (n : nat) (key c : bytes) : result bytes :=
  let m := firstn (length c - n) c in
  if bytes_eqb c (m ++ mix n (key ++ m)) then Ok m else Err InvalidTag.

Definition toy : crypto := {|
  x_hash h d := mix (hash_len h) d;
  x_hmac h k d := mix (hash_len h) (k ++ d);
  x_aes k b := mix 16 (k ++ b);
  x_gcm_enc k n d a := toy_seal 16 (k ++ n ++ a) d;
  x_gcm_dec k n c a := toy_open 16 (k ++ n ++ a) c;
  x_ccm_enc t k n d a := toy_seal t (k ++ n ++ a) d;
  x_ccm_dec t k n c a := toy_open t (k ++ n ++ a) c;
  x_wrap k d := toy_seal 8 k d;
  x_unwrap k c := toy_open 8 k c;
  x_rsa_sign _ h q seed data := Ok (mix 32 (min_be (rsa_n (rsa_public q)) ++ data));
  x_rsa_verify _ h p data s := Ok (bytes_eqb s (mix 32 (min_be (rsa_n p) ++ data)));
  x_oaep_enc h p seed d := toy_seal 16 (min_be (rsa_n p)) d;
  x_oaep_dec h q c := toy_open 16 (min_be (rsa_n (rsa_public q))) c;
  x_ecdsa_sign c h d data := Ok (mix 64 (min_be d ++ data));
  x_ecdsa_verify c h x y data s := Ok (bytes_eqb s (mix 64 (min_be x ++ data)));
  x_ed_sign c d data := Ok (mix 64 (d ++ data));
  x_ed_verify c x data s := Ok (bytes_eqb s (mix 64 (x ++ data)));
  x_ec_pub c d := Ok (d, d + 1);
  x_ec_point c b := Ok (of_be (tl b), of_be (tl b) + 1);
  x_ec_gen c seed := 1000 + seed mod 1000;
  x_ecdh c d x y := Ok (mix 32 (min_be (d * x)));
  x_hkdf h n i s := Ok (mix n (i ++ s));
  x_okp_gen c seed := mix 32 (min_be seed);
  x_okp_pub c d := d;
  x_rsa_gen bits seed := Ok (RsaPriv 3 5 3 1 3 2 (RsaPub 3 15));
  x_urandom seed n := mix n (min_be seed)
|}.

Lemma mix_length : forall n l, length (mix n l) = n.
Proof. intros n l. apply to_be_length. Qed.

Lemma toy_open_seal : forall n k m c, toy_seal n k m = Ok c -> toy_open n k c = Ok m.
Proof.
  intros n k m c H. injection H as <-. unfold toy_open.
  rewrite app_length, mix_length. replace (length m + n - n)%nat with (length m + 0)%nat by lia.
  rewrite firstn_app_2. cbn [firstn]. rewrite app_nil_r, bytes_eqb_refl. reflexivity.
Qed.

Lemma toy_rsa : law_rsa toy.
Proof. intros pad h q seed data s _ H. injection H as <-. cbn [x_rsa_verify toy]. rewrite bytes_eqb_refl. reflexivity. Qed.
Lemma toy_ecdsa : law_ecdsa toy.
Proof.
  intros c h d x y data s H1 H2. injection H1 as <- <-. injection H2 as <-. cbn [x_ecdsa_verify toy].
  rewrite bytes_eqb_refl. reflexivity.
Qed.
Lemma toy_ed : law_ed toy.
Proof.
  intros c d data s H. injection H as <-. cbn [x_ed_verify x_okp_pub toy].
  rewrite bytes_eqb_refl. reflexivity.
Qed.
Lemma toy_gcm : law_gcm toy.
Proof. intros k n d a c H. eapply toy_open_seal. exact H. Qed.
Lemma toy_ccm : law_ccm toy.
Proof. intros t k n d a c H. eapply toy_open_seal. exact H. Qed.
Lemma toy_wrap : law_wrap toy.
Proof. intros k d c H. eapply toy_open_seal. exact H. Qed.
Lemma toy_seal_some : forall n k m c, toy_seal (S n) k m = Ok c -> c <> [].
Proof.
  intros n k m c H E. injection H as <-. apply (f_equal (@length _)) in E. rewrite app_length, mix_length in E.
  cbn [length] in E. lia.
Qed.
Lemma toy_wrap_some : law_wrap_some toy.
Proof. intros k d c H. exact (toy_seal_some 7 k d c H). Qed.
Lemma toy_oaep_some : law_oaep_some toy.
Proof. intros h p seed d c H. exact (toy_seal_some 15 _ d c H). Qed.
Lemma toy_oaep : law_oaep toy.
Proof. intros h q seed d c _ H. eapply toy_open_seal. exact H. Qed.
Lemma toy_ecdh : law_ecdh toy.
Proof.
  intros c d1 d2 x1 y1 x2 y2 H1 H2. injection H1 as <- <-. injection H2 as <- <-.
  cbn [x_ecdh toy]. rewrite N.mul_comm. reflexivity.
Qed.
Lemma toy_hash_len : law_hash_len toy.
Proof. intros h d. apply mix_length. Qed.
Lemma toy_hmac_len : law_hmac_len toy.
Proof. intros h k d. apply mix_length. Qed.
Lemma toy_aes_len : law_aes_len toy.
Proof. intros k b _. apply mix_length. Qed.
Lemma toy_urandom_len : law_urandom_len toy.
Proof. intros s n. apply mix_length. Qed.
Lemma toy_hkdf_len : law_hkdf_len toy.
Proof. intros h n i s b H. injection H as <-. apply mix_length. Qed.
