(** Machine words (C64). *)
From Coq Require Import Lia ZifyBool ZifyNat ZifyN.
From Verif Require Import Base Compact Types Indicators Decode Sign Unchecked Storage Spec SpecSource ProofBase ProofCompact
  ProofSafe2 SpecWord Word ProofAsk.
Local Open Scope list_scope.

Definition wraps (a : overflow) : bool := match a with Wrapping => true | Checked => false end.

Lemma slice_gives_bytes {E} data : is_bytes data -> gives_bytes (@slice_buffer E data).
Proof.
  intros Hd p n e l e'. cbn [rd slice_buffer]. unfold slice_rd.
  destruct (_ <? _)%nat; [discriminate|]. destruct (_ <? _)%N; [discriminate|].
  intros H. injection H as <- _. apply is_bytes_slice, Hd.
Qed.

(** Sums that do not overflow. *)
Lemma add_w_ok W a x y : (x + y < 2 ^ W)%N -> add_w W a x y = Some (x + y)%N.
Proof. intros H. unfold add_w. destruct (N.ltb_spec (x + y) (2 ^ W)); [reflexivity|lia]. Qed.

Lemma add_w_wrap W x y : (x < 2 ^ W)%N -> (y < 2 ^ W)%N -> (2 ^ W <= x + y)%N ->
  add_w W Wrapping x y = Some (x + y - 2 ^ W)%N.
Proof.
  intros Hx Hy H. unfold add_w. destruct (N.ltb_spec (x + y) (2 ^ W)); [lia|]. f_equal.
  generalize dependent (2 ^ W)%N. intros M Hx Hy H _.
  symmetry. apply (N.mod_unique _ _ 1); lia.
Qed.

Lemma word_agree {E} W a data B p n (e : E) : roomy W (wraps a) (List.length data) -> (N.of_nat B < 2 ^ W)%N ->
  asked B p n -> slice_rd data p n e = word_rd W a data p n e.
Proof.
  intros [Hl Hr] HB [Hp Hn]. unfold slice_rd, word_rd.
  destruct (Nat.ltb_spec (List.length data) p) as [H|H]; [reflexivity|].
  destruct (N.ltb_spec (N.of_nat p + n) (2 ^ W)) as [Hs|Hs].
  - rewrite add_w_ok by exact Hs.
    destruct (N.ltb_spec (N.of_nat (List.length data)) (N.of_nat p + n)) as [H1|H1].
    + destruct (N.leb_spec (N.of_nat p + n) (N.of_nat (List.length data))); [lia|]. rewrite andb_false_r. reflexivity.
    + destruct (N.leb_spec (N.of_nat p + n) (N.of_nat (List.length data))); [|lia].
      destruct (N.leb_spec (N.of_nat p) (N.of_nat p + n)); [|lia]. cbn [andb].
      replace (N.to_nat (N.of_nat p + n) - p)%nat with (N.to_nat n) by lia. reflexivity.
  - destruct Hn as [Hn|Hn]; [|lia]. destruct Hr as [Hr|[Hw Hr] ]; [lia|].
    destruct a; [discriminate Hw|]. rewrite add_w_wrap by lia.
    destruct (N.ltb_spec (N.of_nat (List.length data)) (N.of_nat p + n)); [|lia].
    destruct (N.leb_spec (N.of_nat p) (N.of_nat p + n - 2 ^ W)); [lia|]. reflexivity.
Qed.

(** A slice cut short. *)
Lemma limited_slice {E} data k p n (e : E) : (k <= List.length data)%nat ->
  limited_rd (slice_buffer data) k p n e = slice_rd (firstn k data) p n e.
Proof.
  intros Hk. unfold limited_rd, slice_rd. cbn [rd slice_buffer].
  assert (Hf : List.length (firstn k data) = k) by (rewrite firstn_length; lia). rewrite Hf.
  destruct (Nat.ltb_spec k p); [reflexivity|].
  destruct (N.ltb_spec (N.of_nat k) (N.of_nat p + n)); [reflexivity|].
  unfold slice_rd. destruct (Nat.ltb_spec (List.length data) p); [lia|].
  destruct (N.ltb_spec (N.of_nat (List.length data)) (N.of_nat p + n)); [lia|].
  f_equal. f_equal. unfold slice. rewrite skipn_firstn_comm, firstn_firstn. f_equal. lia.
Qed.

Section Run.
Context {E : Type}.
Variable W : N.
Variable a : overflow.

Notation wb := (word_buffer W a).

(** Everything that uses a memory of this size. *)
Lemma decode_word B r data p id : is_bytes data -> roomy W (wraps a) (List.length data) -> (N.of_nat B < 2 ^ W)%N ->
  (List.length data <= B)%nat ->
  same B p (@one _) (decode_as_type_at_position (@slice_buffer E data) r id) (decode_as_type_at_position (wb data) r id).
Proof.
  intros Hd Hr HB Hl. apply same_at; auto.
  - apply good_slice.
  - apply slice_gives_bytes, Hd.
  - intros q n e. apply word_agree; assumption.
Qed.

Lemma type_word B r data p i P : is_bytes data -> roomy W (wraps a) (List.length data) -> (N.of_nat B < 2 ^ W)%N ->
  (List.length data <= B)%nat ->
  same B p (@one _) (decode_with_type (@slice_buffer E data) r i P) (decode_with_type (wb data) r i P).
Proof.
  intros Hd Hr HB Hl. apply same_type; auto.
  - apply good_slice.
  - apply slice_gives_bytes, Hd.
  - intros q n e. apply word_agree; assumption.
Qed.

Section Tx.
Context {ME : Type}.
Variable m : metadata E ME.
Variable data : bytes.
Hypothesis Hd : is_bytes data.
Hypothesis Hr : roomy W (wraps a) (List.length data).
Notation B := (List.length data).

Lemma HB : (N.of_nat B < 2 ^ W)%N.
Proof. apply Hr. Qed.
Lemma Hagree p n (e : E) : asked B p n -> rd (slice_buffer data) p n e = rd (wb data) p n e.
Proof. apply word_agree; [exact Hr|exact HB]. Qed.

Lemma same_mark p : same B p (fun mk q => q = p /\ call_start mk <= extensions_start mk <= B)%nat
  (@mark E ME (slice_buffer data)) (mark_w W a data).
Proof.
  unfold mark, mark_w. eapply same_bind.
  { apply same_map_err, same_local; [lia|].
    apply same_get_compact; [reflexivity|cbn; lia|apply good_slice|apply slice_gives_bytes, Hd|apply Hagree]. }
  intros [n s] q _ (-> & [H1 H2] & _). cbn [fst snd] in *. apply fits_u32 in H1.
  intros Hp e. pose proof (Hagree s n e (asked_short B s n ltac:(lia) H1)) as Hag.
  pose proof (@good_slice E data s n e) as Hgs.
  destruct (N.ltb_spec (N.of_nat s + n) (2 ^ W)) as [Hs|Hs].
  - rewrite add_w_ok by exact Hs. unfold bind, catch, read_slice. rewrite <- Hag.
    destruct (rd (slice_buffer data) s n e) as [[l|x] e'] eqn:Hx; unfold ret, fail; cbn [call_start extensions_start].
    + replace (N.to_nat (N.of_nat s + n)) with (s + N.to_nat n)%nat by lia. split; [reflexivity|]. split; [exact Hp|].
      destruct (Hgs _ _ eq_refl) as [G1 G2]. cbn [total_len slice_buffer] in G2. lia.
    + split; [reflexivity|]. auto.
  - destruct Hr as [Hl [Hc|[Hw Hc] ] ]; [lia|]. destruct a; [discriminate Hw|].
    rewrite add_w_wrap by lia. unfold bind, catch, read_slice. rewrite <- Hag.
    destruct (rd (slice_buffer data) s n e) as [[l|x] e'] eqn:Hx; unfold ret, fail.
    + destruct (Hgs _ _ eq_refl) as [G1 G2]. cbn [total_len slice_buffer] in G2. lia.
    + split; [reflexivity|]. auto.
Qed.

Lemma same_extensions_loop l : forall p, same B p (@one _) (extensions_loop (slice_buffer data) (m_types m) l)
  (extensions_loop (wb data) (m_types m) l).
Proof.
  induction l as [|[i id] l IH]; intros p; cbn [extensions_loop]; [apply same_ret; exact I|].
  eapply same_bind; [apply type_word; [exact Hd|exact Hr|exact HB|lia]|]. intros x q _ _.
  eapply same_bind; [apply IH|]. intros. apply same_ret. exact I.
Qed.

Lemma same_unmarked_extensions g p : same B p (@one _) (decode_extensions_unmarked (slice_buffer data) m g)
  (decode_extensions_unmarked (wb data) m g).
Proof.
  unfold decode_extensions_unmarked. eapply same_bind; [apply same_map_err, same_lift|]. intros l q _ _.
  eapply same_bind; [apply same_map_err, same_extensions_loop|]. intros x q2 _ _.
  eapply same_bind; [apply same_get|]. intros y q3 _ _. cbn [total_len slice_buffer word_buffer].
  destruct (negb _); [apply same_fail|].
  eapply same_bind; [apply same_map_err, same_lift|]. intros nv q4 _ _.
  eapply same_bind; [apply same_lift|]. intros. apply same_ret. exact I.
Qed.

Lemma same_extensions g mk p : (extensions_start mk <= B)%nat ->
  same B p (@one _) (decode_extensions (slice_buffer data) mk m g) (decode_extensions (wb data) mk m g).
Proof.
  intros H. unfold decode_extensions. eapply same_bind; [apply same_local; [exact H|apply same_unmarked_extensions]|].
  intros. apply same_ret. exact I.
Qed.

Lemma same_call_unmarked (b1 b2 : buffer E) (B' : nat) p : total_len b2 = total_len b1 -> (total_len b1 <= B')%nat ->
  good_buffer b1 -> gives_bytes b1 -> (forall p n e, asked B' p n -> rd b1 p n e = rd b2 p n e) ->
  same B' p (@one _) (decode_as_call_unmarked b1 m) (decode_as_call_unmarked b2 m).
Proof.
  intros H1 H2 H3 H4 H5. unfold decode_as_call_unmarked. eapply same_bind; [apply same_map_err, same_lift|]. intros l q _ _.
  eapply same_bind; [apply same_map_err, same_type; assumption|]. intros x q2 _ _.
  destruct (x_data x); try apply same_fail. apply same_ret. exact I.
Qed.

Lemma same_call mk p : (call_start mk <= extensions_start mk <= B)%nat ->
  same B p (@one _) (decode_as_call (slice_buffer data) mk m) (decode_as_call_w W a data mk m).
Proof.
  intros [Hc He]. unfold decode_as_call, data_no_extensions, decode_as_call_w, limit_length. cbn [total_len slice_buffer].
  destruct (Nat.ltb_spec B (extensions_start mk)); [apply same_panic|].
  eapply same_bind.
  { apply same_local; [lia|]. apply same_call_unmarked.
    - cbn [total_len word_buffer]. rewrite firstn_length. lia.
    - exact He.
    - intros q n e l e'. cbn [rd total_len]. rewrite limited_slice by exact He. intros Hx.
      pose proof (@good_slice E (firstn (extensions_start mk) data) q n e l e' Hx) as G.
      cbn [total_len slice_buffer] in G. rewrite firstn_length in G. lia.
    - intros q n e l e'. cbn [rd]. rewrite limited_slice by exact He. intros Hx.
      refine (@slice_gives_bytes E (firstn (extensions_start mk) data) _ q n e l e' Hx). exact (is_bytes_slice data 0 (extensions_start mk) Hd).
    - intros q n e Ha. cbn [rd word_buffer]. rewrite limited_slice by exact He.
      apply (word_agree W a _ B); [|exact HB|exact Ha]. destruct Hr as [R1 R2].
      unfold roomy. rewrite firstn_length. split; [lia|]. destruct R2 as [R2|R2]; [left; lia|right; exact R2]. }
  intros [call pos] q _ _. destruct (Nat.eqb _ _); [|apply same_fail]. apply same_ret. exact I.
Qed.

Lemma same_transaction g p : same B p (@one _) (parse_transaction (slice_buffer data) m g) (parse_transaction_w W a data m g).
Proof.
  unfold parse_transaction, parse_transaction_w. eapply same_bind; [apply same_mark|]. intros mk q _ (-> & Hm).
  eapply same_bind; [apply same_extensions; lia|]. intros x q2 _ _.
  eapply same_bind; [apply same_catch, same_call, Hm|]. intros. apply same_ret. exact I.
Qed.

Lemma same_transaction_unmarked g p :
  same B p (@one _) (parse_transaction_unmarked (slice_buffer data) m g) (parse_transaction_unmarked (wb data) m g).
Proof.
  unfold parse_transaction_unmarked. eapply same_bind.
  { apply (same_local B p (@one _)); [lia|]. eapply same_bind.
    { apply same_call_unmarked; [reflexivity|cbn; lia|apply good_slice|apply slice_gives_bytes, Hd|apply Hagree]. }
    intros c q _ _. eapply same_bind; [apply same_unmarked_extensions|]. intros. apply same_ret. exact I. }
  intros. apply same_ret. exact I.
Qed.

Lemma same_with {X A} p Q (Q' : A -> nat -> Prop) (m1 m2 : M E X A) : same B p Q m1 m2 ->
  (forall e x q e', m1 p e = (Ok x, q, e') -> Q' x q) -> same B p (fun x q => Q x q /\ Q' x q) m1 m2.
Proof.
  intros H HQ Hp e. destruct (H Hp e) as [H1 H2]. split; [exact H1|]. specialize (HQ e).
  destruct (m1 p e) as [[[x|x| |] q] e']; try exact H2. destruct H2 as [H2 H3]. split; [exact H2|]. split; [exact H3|]. eauto.
Qed.

Lemma announced e n s (e' : E) : get_compact U32 (slice_buffer data) 0 e = (Ok n, s, e') ->
  fits U32 n = true /\ s = List.length (compact_enc n) /\ exists rest, data = compact_enc n ++ rest.
Proof.
  intros H. apply get_compact_ok in H; [|exact Hd]. destruct H as (_ & Hf & -> & _ & Hs).
  split; [exact Hf|]. split; [reflexivity|]. exists (skipn (List.length (compact_enc n)) data).
  unfold slice in Hs. cbn [skipn] in Hs. rewrite <- Hs at 1. symmetry. apply firstn_skipn.
Qed.

(** Where the announced length does not make the sum overflow. *)
Lemma same_unchecked p : (forall n, ~ overlong W data n) ->
  same B p (@one _) (decode_as_unchecked_extrinsic (slice_buffer data) m) (decode_as_unchecked_extrinsic_w W a data m).
Proof.
  intros Hroom. unfold decode_as_unchecked_extrinsic, decode_as_unchecked_extrinsic_w.
  eapply same_bind; [apply (same_local B p (@one _)); [lia|] |intros; apply same_ret; exact I].
  unfold decode_unchecked_body, decode_unchecked_body_w.
  eapply same_bind; [apply same_map_err, same_lift|]. cbv beta. intros ps q0 _ ->.
  eapply same_bind.
  { apply same_map_err. apply same_with; [|apply announced].
    apply same_get_compact; [reflexivity|cbn; lia|apply good_slice|apply slice_gives_bytes, Hd|apply Hagree]. }
  intros n q1 _ [ [H1 H2] (Hn & Hs & rest & Hx)]. eapply same_bind; [apply same_get|]. intros s q2 _ [-> ->].
  cbv zeta. rewrite add_w_ok.
  2: { destruct (N.ltb_spec (N.of_nat q1 + n) (2 ^ W)) as [H|H]; [exact H|]. exfalso. apply (Hroom n).
       split; [exact Hn|]. split; [exists rest; exact Hx|]. rewrite <- Hs. exact H. } change (total_len (wb data)) with (total_len (@slice_buffer E data)).
  destruct (_ <? _)%N; [apply same_fail|]. destruct (_ <? _)%N; [apply same_fail|].
  eapply same_bind.
  { apply same_map_err, same_byte; first [reflexivity|apply good_slice|apply (slice_gives_bytes data Hd)|exact Hagree|cbn; lia]. }
  intros v q3 _ [-> Hv]. eapply same_bind; [apply same_set; exact Hv|]. intros _ q4 _ _.
  eapply same_bind; [apply same_map_err, same_lift|]. intros ver q5 _ _.
  destruct (negb _); [apply same_fail|]. destruct (_ =? _)%N.
  - eapply same_bind; [apply same_map_err, decode_word; [exact Hd|exact Hr|exact HB|lia]|]. intros x q6 _ _.
    destruct (x_data x); try apply same_fail. apply same_ret. exact I.
  - do 3 (eapply same_bind; [apply same_map_err, decode_word; [exact Hd|exact Hr|exact HB|lia]|]; intros ? ? _ _).
    eapply same_bind; [apply same_map_err, decode_word; [exact Hd|exact Hr|exact HB|lia]|]. intros x q6 _ _.
    destruct (x_data x); try apply same_fail. apply same_ret. exact I.
Qed.
End Tx.
End Run.

(** The length is found in the same way on any machine that can hold the data. *)
Lemma find_loop_ext {E} (b1 b2 : buffer E) w p k : (forall n e, (n <= 18)%N -> rd b1 p n e = rd b2 p n e) ->
  forall i q e, find_loop w b1 p k i q e = find_loop w b2 p k i q e.
Proof.
  intros H. induction k as [|k IH]; intros i q e; cbn [find_loop]; [reflexivity|].
  destruct (Nat.ltb_spec MAX_COMPACT_LEN i) as [Hi|Hi]; [reflexivity|]. unfold MAX_COMPACT_LEN in Hi.
  unfold bind, read_slice. rewrite H by lia. destruct (rd b2 p (N.of_nat (i + 1)) e) as [[l|x] e']; [|reflexivity].
  destruct (compact_decode w l); [reflexivity|apply IH].
Qed.

Lemma get_compact_word {E} W a w data p (e : E) : (N.of_nat (List.length data) + 18 < 2 ^ W)%N -> (p <= List.length data)%nat ->
  get_compact w (word_buffer W a data) p e = get_compact w (slice_buffer data) p e.
Proof.
  intros HW Hp. unfold get_compact, find_compact. unfold bind, get_pos.
  change (total_len (word_buffer W a data)) with (List.length data). change (total_len (@slice_buffer E data)) with (List.length data).
  destruct (Nat.ltb_spec (List.length data) p); [lia|].
  rewrite (find_loop_ext (word_buffer W a data) (slice_buffer data) w p); [reflexivity|].
  intros n e' Hn. cbn [rd word_buffer slice_buffer]. unfold word_rd, slice_rd.
  destruct (Nat.ltb_spec (List.length data) p); [reflexivity|]. rewrite add_w_ok by lia.
  destruct (N.ltb_spec (N.of_nat (List.length data)) (N.of_nat p + n)) as [H1|H1].
  - destruct (N.leb_spec (N.of_nat p + n) (N.of_nat (List.length data))); [lia|]. rewrite andb_false_r. reflexivity.
  - destruct (N.leb_spec (N.of_nat p + n) (N.of_nat (List.length data))); [|lia].
    destruct (N.leb_spec (N.of_nat p) (N.of_nat p + n)); [|lia]. cbn [andb].
    replace (N.to_nat (N.of_nat p + n) - p)%nat with (N.to_nat n) by lia. reflexivity.
Qed.

Lemma get_overlong {E} W a data n (e : E) : is_bytes data -> (N.of_nat (List.length data) + 18 < 2 ^ W)%N -> overlong W data n ->
  get_compact U32 (word_buffer W a data) 0 e = (Ok n, List.length (compact_enc n), e).
Proof.
  intros Hd HW (Hf & (rest & Hx) & _). rewrite get_compact_word by (exact HW || lia).
  apply get_compact_ok; [exact Hd|]. split; [reflexivity|]. split; [exact Hf|]. split; [reflexivity|].
  rewrite Hx, app_length. split; [lia|]. unfold slice. cbn [skipn]. apply firstn_app_exact.
Qed.

Lemma mark_overlong {E ME} W data n p (e : E) : is_bytes data -> (N.of_nat (List.length data) + 18 < 2 ^ W)%N ->
  overlong W data n -> @mark_w W Checked E ME data p e = (Panic, p, e).
Proof.
  intros Hd HW Ho. unfold mark_w, bind at 1, map_err, at_local. rewrite (get_overlong W Checked data n e Hd HW Ho).
  unfold add_w. destruct Ho as (_ & _ & Ho).
  destruct (N.ltb_spec (N.of_nat (List.length (compact_enc n)) + n) (2 ^ W)); [lia|]. reflexivity.
Qed.

Lemma mark_not_overlong {E ME} W a data p (e : E) : is_bytes data -> (N.of_nat (List.length data) + 18 < 2 ^ W)%N ->
  (forall n, ~ overlong W data n) -> @mark_w W a E ME data p e = mark (slice_buffer data) p e.
Proof.
  intros Hd HW Ho. unfold mark_w, mark. unfold bind at 1 3. unfold map_err, at_local.
  rewrite get_compact_word by (exact HW || lia).
  destruct (get_compact U32 (slice_buffer data) 0 e) as [[[n|x| |] s] e'] eqn:Hg; try reflexivity.
  apply (announced data Hd) in Hg. destruct Hg as (Hf & -> & rest & Hx).
  assert (Hs : (N.of_nat (List.length (compact_enc n)) + n < 2 ^ W)%N).
  { destruct (N.ltb_spec (N.of_nat (List.length (compact_enc n)) + n) (2 ^ W)) as [H|H]; [exact H|]. exfalso. apply (Ho n).
    split; [exact Hf|]. split; [exists rest; exact Hx|exact H]. }
  rewrite add_w_ok by exact Hs. unfold bind, catch, read_slice. cbn [rd word_buffer slice_buffer]. unfold word_rd, slice_rd.
  rewrite add_w_ok by exact Hs.
  destruct (Nat.ltb_spec (List.length data) (List.length (compact_enc n))); [reflexivity|].
  destruct (N.ltb_spec (N.of_nat (List.length data)) (N.of_nat (List.length (compact_enc n)) + n)) as [H1|H1].
  - destruct (N.leb_spec (N.of_nat (List.length (compact_enc n)) + n) (N.of_nat (List.length data))); [lia|].
    rewrite andb_false_r. reflexivity.
  - destruct (N.leb_spec (N.of_nat (List.length (compact_enc n)) + n) (N.of_nat (List.length data))); [|lia].
    destruct (N.leb_spec (N.of_nat (List.length (compact_enc n))) (N.of_nat (List.length (compact_enc n)) + n)); [|lia].
    cbn [andb]. unfold ret. repeat f_equal. lia.
Qed.

Lemma unchecked_overlong {E ME} W a data n (m : metadata E ME) ps p (e : E) : is_bytes data ->
  (N.of_nat (List.length data) + 18 < 2 ^ W)%N -> (4294967296 <= 2 ^ W)%N -> m_extrinsic_type_params m = inl ps -> overlong W data n ->
  fst (fst (decode_as_unchecked_extrinsic_w W a data m p e)) =
    match a with
    | Checked => Panic
    | Wrapping => Err (UParsing (SomeDataNotUsedBlob (N.to_nat (N.of_nat (List.length (compact_enc n)) + n - 2 ^ W))))
    end.
Proof.
  intros Hd HW H32 Hps Ho. unfold decode_as_unchecked_extrinsic_w, decode_unchecked_body_w. cbv zeta.
  unfold bind, at_local, map_err, lift, get_pos. rewrite Hps. unfold ret.
  rewrite (get_overlong W a data n e Hd HW Ho). destruct Ho as (Hf & (rest & Hx) & Ho).
  destruct a.
  - unfold add_w. destruct (N.ltb_spec (N.of_nat (List.length (compact_enc n)) + n) (2 ^ W)); [lia|]. reflexivity.
  - pose proof (fits_u32 n Hf). pose proof (compact_enc_length U32 n Hf).
    assert (List.length (compact_enc n) <= List.length data)%nat by (rewrite Hx, app_length; lia).
    rewrite add_w_wrap by lia. change (total_len (word_buffer W Wrapping data)) with (List.length data).
    destruct (N.ltb_spec (N.of_nat (List.length data)) (N.of_nat (List.length (compact_enc n)) + n - 2 ^ W)); [lia|].
    destruct (N.ltb_spec (N.of_nat (List.length (compact_enc n)) + n - 2 ^ W) (N.of_nat (List.length data))); [|lia].
    reflexivity.
Qed.
