(** C123: what is cut off is refused. *)
From Coq Require Import NArith ZArith Bool String Lia.
From Coq Require Import Init.Byte List.
From Verif Require Import Bytes Value Cbor Registry Crypto Keys Algorithms Headers Messages Recipients Toy SpecAlg SpecIana SpecMsg SpecTrunc.
From Verif Require Import BytesProofs ValueProofs CborProofs DataProofs HdrProofs2 PropHdr PropMsg PropAccept.
Import ListNotations.
Local Open Scope result_scope.

(** ** Readers that are cut off *)

(** A reader that succeeds on a longer input either did not need the additional bytes or ran
    out of input before. *)
Definition reader {A} (p : bytes -> result (A * bytes)) : Prop := forall l s a r, p (l ++ s) = Ok (a, r) ->
  (exists r', r = r' ++ s /\ p l = Ok (a, r')) \/ ((length r < length s)%nat /\ p l = Err CBORDecodeEOF).

Definition shrinks {A} (p : bytes -> result (A * bytes)) : Prop := forall l a r, p l = Ok (a, r) -> (length r <= length l)%nat.

Lemma local_shrinks : forall A (p : bytes -> result (A * bytes)), local p -> shrinks p.
Proof. intros A p H l a r E. destruct (H _ _ _ E) as (q & -> & _). rewrite app_length. lia. Qed.
Lemma flocal_shrinks : forall A f (p : nat -> bytes -> result (A * bytes)), flocal f p -> shrinks (p f).
Proof. intros A f p H l a r E. destruct (H _ _ _ E) as (q & -> & _). rewrite app_length. lia. Qed.

Lemma reader_ret : forall A (a : A), reader (fun l => Ok (a, l)).
Proof. intros A a l s x r H. injection H as <- <-. left. eauto. Qed.
Lemma reader_err : forall A e, reader (fun _ => @Err (A * bytes) e).
Proof. intros A e l s x r H. discriminate. Qed.
Lemma reader_if : forall A (c : bool) (p q : bytes -> result (A * bytes)), reader p -> reader q -> reader (fun l => if c then p l else q l).
Proof. intros A [] p q HP HQ; assumption. Qed.

Lemma reader_bind : forall A B (p : bytes -> result (A * bytes)) (k : A -> bytes -> result (B * bytes)), reader p -> (forall a, reader (k a)) -> (forall a, shrinks (k a)) ->
  reader (fun l => bind (p l) (fun ar => match ar with (a, r) => k a r end)).
Proof.
  intros A B p k HP HK HS l s b r H. cbv beta in *. apply bind_ok in H as ([a r1] & E & H). destruct (HP _ _ _ _ E) as [(r' & -> & E')|[HL E']]; rewrite E'; cbn [bind].
  - apply HK. exact H.
  - right. split; [|reflexivity]. apply HS in H. lia.
Qed.

Lemma reader_take : forall n, reader (take n).
Proof.
  intros n l s a r H. unfold take in *. destruct (blen (l ++ s) <? n)%N eqn:E; [discriminate|]. apply N.ltb_ge in E. injection H as <- <-. unfold blen in *. rewrite app_length in E. destruct (N.of_nat (length l) <? n)%N eqn:E'.
  - apply N.ltb_lt in E'. right. split; [|reflexivity]. rewrite skipn_length, app_length. lia.
  - apply N.ltb_ge in E'. left. exists (skipn (N.to_nat n) l). rewrite skipn_app, firstn_app. replace (N.to_nat n - length l)%nat with 0%nat by lia. cbn [skipn firstn]. rewrite app_nil_r. auto.
Qed.

Ltac ret := first [apply local_shrinks, local_ret | apply local_shrinks, local_err].

Lemma reader_arg : forall allow info, reader (arg allow info).
Proof.
  intros allow info. unfold arg. apply reader_if; [apply reader_ret|].
  do 4 (apply reader_if; [apply (reader_bind _ _ (take _) (fun a r => Ok (Some (of_be a), r))); [apply reader_take|intros a; apply reader_ret|intros a; ret]|]).
  apply reader_if; [apply reader_ret|apply reader_err].
Qed.

Lemma reader_arg_fixed : forall info, reader (arg_fixed info).
Proof.
  intros info. unfold arg_fixed. apply (reader_bind _ _ (arg false info) (fun o r => match o with Some n => Ok (n, r) | None => Err CBORDecodeValueError end)); [apply reader_arg|intros [n|]; [apply reader_ret|apply reader_err]|intros [n|]; ret].
Qed.

Lemma reader_take_string : forall text n, reader (take_string text n).
Proof.
  intros text n. unfold take_string. apply reader_if; [apply reader_err|].
  apply (reader_bind _ _ (take n) (fun b r => if text && negb (utf8_valid b) then Err CBORDecodeValueError else Ok (b, r))); [apply reader_take|intros b; destruct (_ && _); [apply reader_err|apply reader_ret]|intros b; destruct (_ && _); ret].
Qed.

Lemma reader_special : forall info, reader (dec_special info).
Proof.
  intros info. unfold dec_special. do 2 (apply reader_if; [apply reader_ret|]).
  apply reader_if. { apply (reader_bind _ _ (take 1) (fun a r => let n := of_be a in if (24 <=? n)%N && (n <? 32)%N then Err CBORDecodeValueError else Ok (CSimple n, r))); [apply reader_take|intros a; cbv zeta; destruct (_ && _); [apply reader_err|apply reader_ret]|intros a; cbv zeta; destruct (_ && _); ret]. }
  apply reader_if. { apply (reader_bind _ _ (take 2) (fun a r => Ok (CFloat F16 (of_be a), r))); [apply reader_take|intros a; apply reader_ret|intros a; ret]. }
  apply reader_if. { apply (reader_bind _ _ (take 4) (fun a r => Ok (CFloat F32 (of_be a), r))); [apply reader_take|intros a; apply reader_ret|intros a; ret]. }
  apply reader_if. { apply (reader_bind _ _ (take 8) (fun a r => Ok (CFloat F64 (of_be a), r))); [apply reader_take|intros a; apply reader_ret|intros a; ret]. }
  apply reader_if; [apply reader_ret|apply reader_err].
Qed.

Lemma reader_byte : forall A (k : byte -> bytes -> result (A * bytes)), (forall b, reader (k b)) -> (forall b, shrinks (k b)) -> reader (fun l => match l with [] => Err CBORDecodeEOF | b :: r => k b r end).
Proof.
  intros A k HK HS [|b l] s a r H; cbn [app] in *.
  - right. split; [|reflexivity]. destruct s as [|b s]; [discriminate|]. apply HS in H. cbn [length]. lia.
  - apply HK. exact H.
Qed.

(** A reader that does something with the result of another one and reads nothing more. *)
Lemma reader_map : forall A B (p : bytes -> result (A * bytes)) (g : A -> B), reader p -> reader (fun l => bind (p l) (fun ar => match ar with (a, r) => Ok (g a, r) end)).
Proof. intros A B p g HP. apply (reader_bind _ _ p (fun a r => Ok (g a, r))); [exact HP|intros a; apply reader_ret|intros a; ret]. Qed.
Lemma shrinks_map : forall A B (p : bytes -> result (A * bytes)) (g : A -> B), shrinks p -> shrinks (fun l => bind (p l) (fun ar => match ar with (a, r) => Ok (g a, r) end)).
Proof. intros A B p g HP l b r H. cbv beta in H. apply bind_ok in H as ([a r1] & E & H). injection H as <- <-. eauto. Qed.
Lemma shrinks_bind : forall A B (p : bytes -> result (A * bytes)) (k : A -> bytes -> result (B * bytes)), shrinks p -> (forall a, shrinks (k a)) -> shrinks (fun l => bind (p l) (fun ar => match ar with (a, r) => k a r end)).
Proof. intros A B p k HP HK l b r H. cbv beta in H. apply bind_ok in H as ([a r1] & E & H). apply HP in E. apply HK in H. lia. Qed.

Lemma chunks_shrinks : forall text f, shrinks (dec_chunks f text).
Proof. intros text f. apply (flocal_shrinks _ f (fun f => dec_chunks f text)). apply dec_chunks_flocal. Qed.
Lemma string_shrinks : forall f text info, shrinks (dec_string f text info).
Proof. intros f text info. apply (flocal_shrinks _ f (fun f => dec_string f text info)). apply dec_string_flocal. Qed.
Lemma dec_shrinks : forall f, shrinks (dec f).
Proof. intros f. apply (flocal_shrinks _ f dec). apply dec_flocal. Qed.
Lemma seq_shrinks : forall f n, shrinks (dec_seq f n).
Proof. intros f n. apply (flocal_shrinks _ f (fun f => dec_seq f n)). apply dec_all_flocal. Qed.
Lemma map_shrinks : forall f n, shrinks (dec_map f n).
Proof. intros f n. apply (flocal_shrinks _ f (fun f => dec_map f n)). apply dec_all_flocal. Qed.
Lemma seqi_shrinks : forall f, shrinks (dec_seq_indef f).
Proof. intros f. apply (flocal_shrinks _ f dec_seq_indef). apply dec_all_flocal. Qed.
Lemma mapi_shrinks : forall f, shrinks (dec_map_indef f).
Proof. intros f. apply (flocal_shrinks _ f dec_map_indef). apply dec_all_flocal. Qed.
Lemma take_string_shrinks : forall text n, shrinks (take_string text n).
Proof. intros text n. apply local_shrinks, local_take_string. Qed.

Lemma chunk_step_reader : forall text f, reader (dec_chunks f text) -> forall b, reader (fun r => if (b2N b =? 255)%N then Ok ([], r)
    else if (b2N b / 32 =? (if text then 3 else 2))%N then
      bind (arg_fixed (b2N b mod 32) r) (fun '(n, r1) => bind (take_string text n r1) (fun '(s, r2) => bind (dec_chunks f text r2) (fun '(s', r3) => Ok (s ++ s', r3))))
    else Err CBORDecodeValueError).
Proof.
  intros text f IH b. apply reader_if; [apply (reader_ret _ [])|]. apply reader_if; [|apply reader_err].
  apply (reader_bind _ _ (arg_fixed (b2N b mod 32)) (fun n r1 => bind (take_string text n r1) (fun '(s, r2) => bind (dec_chunks f text r2) (fun '(s', r3) => Ok (s ++ s', r3))))); [apply reader_arg_fixed| |].
  - intros n. apply (reader_bind _ _ (take_string text n) (fun s r2 => bind (dec_chunks f text r2) (fun '(s', r3) => Ok (s ++ s', r3)))); [apply reader_take_string| |].
    + intros s. apply (reader_map _ _ (dec_chunks f text) (fun s' => s ++ s')). exact IH.
    + intros s. apply (shrinks_map _ _ (dec_chunks f text) (fun s' => s ++ s')). apply chunks_shrinks.
  - intros n. apply (shrinks_bind _ _ (take_string text n) (fun s r2 => bind (dec_chunks f text r2) (fun '(s', r3) => Ok (s ++ s', r3)))); [apply take_string_shrinks|].
    intros s. apply (shrinks_map _ _ (dec_chunks f text) (fun s' => s ++ s')). apply chunks_shrinks.
Qed.

Lemma reader_chunks : forall text f, reader (dec_chunks f text).
Proof.
  intros text. induction f as [|f IH]; [intros l s a r H; discriminate|].
  intros l s a r H. change (dec_chunks (S f) text (l ++ s)) with (match l ++ s with [] => Err CBORDecodeEOF | b :: r => if (b2N b =? 255)%N then Ok ([], r)
    else if (b2N b / 32 =? (if text then 3 else 2))%N then
      bind (arg_fixed (b2N b mod 32) r) (fun '(n, r1) => bind (take_string text n r1) (fun '(s, r2) => bind (dec_chunks f text r2) (fun '(s', r3) => Ok (s ++ s', r3))))
    else Err CBORDecodeValueError end) in H.
  pose proof (chunk_step_reader text f IH) as HR. destruct l as [|b l]; cbn [app] in H.
  - right. split; [|reflexivity]. destruct s as [|b s]; [discriminate|]. assert (HS : shrinks (dec_chunks (S f) text)) by apply chunks_shrinks. specialize (HS (b :: s) a r H). cbn [length] in HS |- *.
    destruct (PeanoNat.Nat.eq_dec (length r) (S (length s))) as [E|E]; [|lia]. exfalso.
    destruct (dec_chunks_flocal text (S f) (b :: s) a r H) as (q & EQ & HQ). assert (q = []) as -> by (apply (f_equal (@length _)) in EQ; rewrite app_length in EQ; cbn [length] in EQ; destruct q; [reflexivity|cbn [length] in EQ; lia]).
    specialize (HQ (S f) [] (le_n _)). discriminate HQ.
  - exact (HR b l s a r H).
Qed.

Lemma reader_string : forall f text info, reader (dec_string f text info).
Proof.
  intros f text info. unfold dec_string.
  apply (reader_bind _ _ (arg true info) (fun o r => match o with
      | Some n => bind (take_string text n r) (fun '(b, r') => Ok (cstring text b, r'))
      | None => bind (dec_chunks f text r) (fun '(b, r') => Ok (cstring text b, r')) end)); [apply reader_arg| |].
  - intros [n|]; [apply (reader_map _ _ (take_string text n) (cstring text)), reader_take_string|apply (reader_map _ _ (dec_chunks f text) (cstring text)), reader_chunks].
  - intros [n|]; [apply (shrinks_map _ _ (take_string text n) (cstring text)), take_string_shrinks|apply (shrinks_map _ _ (dec_chunks f text) (cstring text)), chunks_shrinks].
Qed.

Lemma reader_body : forall b f, reader (dec f) -> (forall n, reader (dec_seq f n)) -> (forall n, reader (dec_map f n)) -> reader (dec_seq_indef f) -> reader (dec_map_indef f) -> reader (dec_body b f).
Proof.
  intros b f Hd Hs Hm Hsi Hmi. unfold dec_body. set (mt := (b2N b / 32)%N). set (info := (b2N b mod 32)%N). cbv zeta.
  apply reader_if; [apply (reader_map _ _ (arg_fixed info) CUint), reader_arg_fixed|].
  apply reader_if; [apply (reader_map _ _ (arg_fixed info) CNint), reader_arg_fixed|].
  apply reader_if; [apply reader_string|]. apply reader_if; [apply reader_string|].
  apply reader_if.
  { apply (reader_bind _ _ (arg true info) (fun o r' => match o with
      | Some n => if (max_len <=? n)%N then Err CBORDecodeValueError else bind (dec_seq f n r') (fun '(cs, r2) => Ok (CArr cs, r2))
      | None => bind (dec_seq_indef f r') (fun '(cs, r2) => Ok (CArr cs, r2)) end)); [apply reader_arg| |]; intros [n|].
    - apply reader_if; [apply reader_err|]. apply (reader_map _ _ (dec_seq f n) CArr), Hs.
    - apply (reader_map _ _ (dec_seq_indef f) CArr), Hsi.
    - destruct (max_len <=? n)%N; [ret|]. apply (shrinks_map _ _ (dec_seq f n) CArr), seq_shrinks.
    - apply (shrinks_map _ _ (dec_seq_indef f) CArr), seqi_shrinks. }
  apply reader_if.
  { apply (reader_bind _ _ (arg true info) (fun o r' => match o with
      | Some n => if (max_len <=? n)%N then Err CBORDecodeValueError else bind (dec_map f n r') (fun '(cs, r2) => Ok (CMap cs, r2))
      | None => bind (dec_map_indef f r') (fun '(cs, r2) => Ok (CMap cs, r2)) end)); [apply reader_arg| |]; intros [n|].
    - apply reader_if; [apply reader_err|]. apply (reader_map _ _ (dec_map f n) CMap), Hm.
    - apply (reader_map _ _ (dec_map_indef f) CMap), Hmi.
    - destruct (max_len <=? n)%N; [ret|]. apply (shrinks_map _ _ (dec_map f n) CMap), map_shrinks.
    - apply (shrinks_map _ _ (dec_map_indef f) CMap), mapi_shrinks. }
  apply reader_if.
  { apply (reader_bind _ _ (arg_fixed info) (fun t r' => bind (dec f r') (fun '(c, r2) => Ok (CTag t c, r2)))); [apply reader_arg_fixed| |]; intros t.
    - apply (reader_map _ _ (dec f) (CTag t)), Hd.
    - apply (shrinks_map _ _ (dec f) (CTag t)), dec_shrinks. }
  apply reader_special.
Qed.

Lemma reader_dec_S : forall f, (forall b, reader (dec_body b f)) -> reader (dec (S f)).
Proof.
  intros f HB [|b l] s a r H.
  - right. split; [|reflexivity]. cbn [app] in H. destruct (dec_consumes _ _ _ _ H) as (b & q & ->). cbn [length]. rewrite app_length. lia.
  - cbn [app] in H. rewrite dec_S in H. rewrite dec_S. exact (HB b l s a r H).
Qed.

Lemma reader_all : forall f, reader (dec f) /\ (forall n, reader (dec_seq f n)) /\ (forall n, reader (dec_map f n)) /\ reader (dec_seq_indef f) /\ reader (dec_map_indef f).
Proof.
  induction f as [|f (Hd & Hs & Hm & Hsi & Hmi)]; [repeat split; intros; intros l s a r H; discriminate|].
  split; [|split; [|split; [|split]]].
  - apply reader_dec_S. intros b. apply reader_body; assumption.
  - intros n. apply (reader_if _ (n =? 0)%N (fun l => Ok ([], l)) (fun l => bind (dec f l) (fun '(c, r) => bind (dec_seq f (n - 1) r) (fun '(cs, r') => Ok (c :: cs, r'))))); [apply reader_ret|].
    apply (reader_bind _ _ (dec f) (fun c r => bind (dec_seq f (n - 1) r) (fun '(cs, r') => Ok (c :: cs, r')))); [exact Hd| |]; intros c.
    + apply (reader_map _ _ (dec_seq f (n - 1)) (cons c)), Hs.
    + apply (shrinks_map _ _ (dec_seq f (n - 1)) (cons c)), seq_shrinks.
  - intros n. apply (reader_if _ (n =? 0)%N (fun l => Ok ([], l)) (fun l => bind (dec f l) (fun '(k, r) => bind (dec f r) (fun '(v, r1) => bind (dec_map f (n - 1) r1) (fun '(cs, r2) => Ok ((k, v) :: cs, r2)))))); [apply reader_ret|].
    apply (reader_bind _ _ (dec f) (fun k r => bind (dec f r) (fun '(v, r1) => bind (dec_map f (n - 1) r1) (fun '(cs, r2) => Ok ((k, v) :: cs, r2))))); [exact Hd| |]; intros k.
    + apply (reader_bind _ _ (dec f) (fun v r1 => bind (dec_map f (n - 1) r1) (fun '(cs, r2) => Ok ((k, v) :: cs, r2)))); [exact Hd| |]; intros v.
      * apply (reader_map _ _ (dec_map f (n - 1)) (cons (k, v))), Hm.
      * apply (shrinks_map _ _ (dec_map f (n - 1)) (cons (k, v))), map_shrinks.
    + apply (shrinks_bind _ _ (dec f) (fun v r1 => bind (dec_map f (n - 1) r1) (fun '(cs, r2) => Ok ((k, v) :: cs, r2)))); [apply dec_shrinks|]. intros v.
      apply (shrinks_map _ _ (dec_map f (n - 1)) (cons (k, v))), map_shrinks.
  - apply (reader_bind _ _ (dec f) (fun c r => match c with CBreak => Ok ([], r) | _ => bind (dec_seq_indef f r) (fun '(cs, r') => Ok (c :: cs, r')) end)); [exact Hd| |]; intros c.
    + pose proof (reader_map _ _ (dec_seq_indef f) (cons c) Hsi) as H. destruct c; try exact H. apply (reader_ret _ []).
    + pose proof (shrinks_map _ _ (dec_seq_indef f) (cons c) (seqi_shrinks f)) as H. destruct c; try exact H. ret.
  - apply (reader_bind _ _ (dec f) (fun k r => match k with CBreak => Ok ([], r) | _ => bind (dec f r) (fun '(v, r1) => bind (dec_map_indef f r1) (fun '(cs, r2) => Ok ((k, v) :: cs, r2))) end)); [exact Hd| |]; intros k.
    + assert (H : reader (fun r => bind (dec f r) (fun '(v, r1) => bind (dec_map_indef f r1) (fun '(cs, r2) => Ok ((k, v) :: cs, r2))))).
      { apply (reader_bind _ _ (dec f) (fun v r1 => bind (dec_map_indef f r1) (fun '(cs, r2) => Ok ((k, v) :: cs, r2)))); [exact Hd| |]; intros v.
        - apply (reader_map _ _ (dec_map_indef f) (cons (k, v))), Hmi.
        - apply (shrinks_map _ _ (dec_map_indef f) (cons (k, v))), mapi_shrinks. }
      destruct k; try exact H. apply (reader_ret _ []).
    + assert (H : shrinks (fun r => bind (dec f r) (fun '(v, r1) => bind (dec_map_indef f r1) (fun '(cs, r2) => Ok ((k, v) :: cs, r2))))).
      { apply (shrinks_bind _ _ (dec f) (fun v r1 => bind (dec_map_indef f r1) (fun '(cs, r2) => Ok ((k, v) :: cs, r2)))); [apply dec_shrinks|]. intros v.
        apply (shrinks_map _ _ (dec_map_indef f) (cons (k, v))), mapi_shrinks. }
      destruct k; try exact H. ret.
Qed.

(** ** Items that are cut off *)

Lemma firstn_within : forall A n (q s : list A), (n < length q)%nat -> firstn n (q ++ s) = firstn n q.
Proof. intros A n q s H. rewrite firstn_app. replace (n - length q)%nat with 0%nat by lia. cbn [firstn]. apply app_nil_r. Qed.

Lemma item_cut : forall q c n, decode_item q = Ok (c, []) -> (n < length q)%nat -> decode_item (firstn n q) = Err CBORDecodeEOF.
Proof.
  intros q c n H HN. unfold decode_item in H. assert (HL : (length (firstn n q) <= length q)%nat) by (rewrite firstn_length; lia).
  rewrite <- (firstn_skipn n q) in H at 2. destruct (reader_all (fuel_for q)) as (HR & _). destruct (HR _ _ _ _ H) as [(r' & E & _)|[_ E]].
  - symmetry in E. apply app_eq_nil in E as [_ E]. apply (f_equal (@length _)) in E. rewrite skipn_length in E. cbn [length] in E. lia.
  - rewrite <- E. symmetry. apply dec_fuel. unfold fuel_for. lia.
Qed.

Lemma loads_cut : forall b v, loads (VBytes b) = Ok v -> exists n, forall k,
  ((k < n)%nat -> loads (VBytes (firstn k b)) = Err CBORDecodeEOF) /\ ((n <= k)%nat -> loads (VBytes (firstn k b)) = Ok v).
Proof.
  intros b v H. cbn [loads] in *. unfold loads_bytes in *. apply bind_ok in H as ([c r] & HD & HL). destruct (decode_item_split _ _ _ HD) as (q & -> & _ & HQ).
  pose proof (HQ []) as H0. rewrite app_nil_r in H0. exists (length q). intros k. split; intros HK.
  - rewrite (firstn_within _ k q r HK), (item_cut _ _ _ H0 HK). reflexivity.
  - rewrite firstn_app, firstn_all2, HQ by exact HK. exact HL.
Qed.

(** What the library writes is one item. *)
Definition written (b : bytes) : Prop := exists c, wfc c = true /\ b = enc c.

Lemma dumps_written : forall h v b, dumps cls_fullname h v = Ok b -> written b.
Proof. intros h v b H. unfold dumps in H. apply bind_ok in H as (c & _ & H). destruct (wfc c) eqn:E; [|discriminate]. injection H as <-. exists c. auto. Qed.
Lemma emit_written : forall c n tag items b, emit c n tag items = Ok b -> written b.
Proof. intros c n tag items b H. exact (dumps_written _ _ _ H). Qed.

Lemma encoded_written : forall X b, encoded X b -> written b.
Proof.
  intros X b H. destruct H as [seed m tag sign d b H|seed m tag d b H|c tag enc b H|m tag mac b H|n m tag enc b H|n m tag mac b H|k b H].
  - unfold sign1_encode in H. apply bind_ok in H as (p & _ & H). apply bind_ok in H as (items & _ & H). exact (emit_written _ _ _ _ _ H).
  - unfold sign_encode in H. apply bind_ok in H as (p & _ & H). apply bind_ok in H as (items & _ & H). exact (emit_written _ _ _ _ _ H).
  - unfold enc0_encode in H. apply bind_ok in H as (p & _ & H). apply bind_ok in H as (items & _ & H). exact (emit_written _ _ _ _ _ H).
  - unfold mac0_encode in H. destruct (phdr_encoded (m0_core m)); [|discriminate]. destruct mac; [|exact (emit_written _ _ _ _ _ H)].
    destruct (mac0_compute_tag X m) as [m' [t|]]; [|discriminate]. exact (emit_written _ _ _ _ _ H).
  - unfold encm_encode in H. destruct (phdr_encoded (e_core m)) as [p|]; [|discriminate].
    destruct (if enc then let '(s, x) := encm_encrypt X n m in (s, bind x (fun b => Ok (VBytes b))) else ((n, m), Ok (vopt (payload (e_core m))))) as [[n1 m1] [bd|]]; [|discriminate].
    destruct (e_rcpts m1) as [|r rs]; [exact (emit_written _ _ _ _ _ H)|]. destruct (get_attr (e_core m1) Algorithm); [|discriminate].
    destruct (rcpts_encode X n1 (r :: rs)) as [[n2 rs'] [vs|]]; [|discriminate]. exact (emit_written _ _ _ _ _ H).
  - unfold macm_encode in H. destruct (phdr_encoded (mm_core m)) as [p|]; [|discriminate].
    destruct (if mac then let '(s, x) := macm_compute_tag X n m in (s, bind x (fun b => Ok [VBytes b])) else ((n, m), Ok [])) as [[n1 m1] [bd|]]; [|discriminate].
    destruct (mm_rcpts m1) as [[|r rs]|]; [exact (emit_written _ _ _ _ _ H)| |discriminate]. destruct (get_attr (mm_core m1) Algorithm); [|discriminate].
    destruct (rcpts_encode X n1 (r :: rs)) as [[n2 rs'] [vs|]]; [|discriminate]. exact (emit_written _ _ _ _ _ H).
  - exact (dumps_written _ _ _ H).
Qed.

(** ** The claims *)

(** If some bytes are accepted as a message then there is a length such that every prefix that
    is shorter is refused with [CBORDecodeEOF], and every prefix that is not is accepted as the
    same message: a prefix is never taken for another message. *)
Theorem C123_received : forall X expected allow b m, decode X expected allow (VBytes b) = Ok m -> exists n, forall k,
  ((k < n)%nat -> decode X expected allow (VBytes (firstn k b)) = Err CBORDecodeEOF) /\
  ((n <= k)%nat -> decode X expected allow (VBytes (firstn k b)) = Ok m).
Proof.
  intros X expected allow b m H. unfold decode in *. destruct (loads (VBytes b)) as [v|e] eqn:E; [|destruct (is_value_error e); discriminate].
  destruct (loads_cut _ _ E) as (n & HN). exists n. intros k. destruct (HN k) as [H1 H2]. split; intros HK; [rewrite (H1 HK); reflexivity|rewrite (H2 HK); exact H].
Qed.
Print Assumptions C123_received.

(** The same of keys. *)
Theorem C123_received_key : forall X b key, key_decode X (VBytes b) = Ok key -> exists n, forall k,
  ((k < n)%nat -> key_decode X (VBytes (firstn k b)) = Err CBORDecodeEOF) /\
  ((n <= k)%nat -> key_decode X (VBytes (firstn k b)) = Ok key).
Proof.
  intros X b key H. unfold key_decode in *. apply bind_ok in H as (v & E & H).
  destruct (loads_cut _ _ E) as (n & HN). exists n. intros k. destruct (HN k) as [H1 H2]. split; intros HK; [rewrite (H1 HK); reflexivity|rewrite (H2 HK); exact H].
Qed.
Print Assumptions C123_received_key.

(** Whatever the library has encoded, every proper prefix of it is refused, as a message and as
    a key. *)
Theorem C123_sent : forall X b k, encoded X b -> (k < length b)%nat ->
  forall Y expected allow, decode Y expected allow (VBytes (firstn k b)) = Err CBORDecodeEOF /\ key_decode Y (VBytes (firstn k b)) = Err CBORDecodeEOF.
Proof.
  intros X b k H HK Y expected allow. destruct (encoded_written _ _ H) as (c & HW & ->). pose proof (decode_item_enc c [] HW) as HD. rewrite app_nil_r in HD. pose proof (item_cut _ _ _ HD HK) as HE.
  split; [unfold decode|unfold key_decode]; cbn [loads]; unfold loads_bytes; rewrite HE; reflexivity.
Qed.
Print Assumptions C123_sent.

(** Of two things the library has encoded, neither is a proper prefix of the other. *)
Theorem C123_prefix : forall X b1 b2 s, encoded X b1 -> encoded X b2 -> b2 = b1 ++ s -> s = [].
Proof.
  intros X b1 b2 s H1 H2 E. destruct (encoded_written _ _ H1) as (c1 & HW1 & ->). destruct (encoded_written _ _ H2) as (c2 & HW2 & ->).
  pose proof (decode_item_enc c1 s HW1) as D1. pose proof (decode_item_enc c2 [] HW2) as D2. rewrite app_nil_r, E, D1 in D2. congruence.
Qed.
Print Assumptions C123_prefix.

(** ** Examples *)

Definition ex_cut : bytes := got_bytes (snd (mac0_encode toy (Mac0 (ex_built (alg 5) false ex_sym) (VBytes [])) true true)).

(** A message that is written and read, whole and with two more bytes behind it, but not without
    its last byte. *)
Example C123_example : encoded toy ex_cut /\ (length ex_cut = 100)%nat /\ (exists m, decode toy None true (VBytes (ex_cut ++ [x00; x01])) = Ok m /\ decode toy None true (VBytes ex_cut) = Ok m) /\ decode toy None true (VBytes (firstn 99 ex_cut)) = Err CBORDecodeEOF.
Proof.
  split; [apply (E_mac0 toy (Mac0 (ex_built (alg 5) false ex_sym) (VBytes [])) true true); vm_compute; reflexivity|].
  split; [vm_compute; reflexivity|]. split; [eexists; split; [vm_compute; reflexivity|]; vm_compute; reflexivity|]. vm_compute. reflexivity.
Qed.

Definition ex_cut_key : bytes := got_bytes (key_encode ex_sym).
Example C123_key_example : encoded toy ex_cut_key /\ (10 < length ex_cut_key)%nat /\ (exists k, key_decode toy (VBytes ex_cut_key) = Ok k) /\ key_decode toy (VBytes (firstn 10 ex_cut_key)) = Err CBORDecodeEOF.
Proof.
  split; [apply (E_key toy ex_sym); vm_compute; reflexivity|]. split; [vm_compute; lia|]. split; [eexists; vm_compute; reflexivity|]. vm_compute. reflexivity.
Qed.
