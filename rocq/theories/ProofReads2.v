(** The number of reads of the functions of the interface (C65). *)
From Coq Require Import Lia ZifyBool ZifyNat ZifyN.
From Verif Require Import Base Compact Types Indicators Decode Sign Unchecked Storage Spec SpecSource ProofSafe ProofSafe2 SpecReads ProofReads.
Local Open Scope list_scope.

Section Reads.
Context {E : Type}.
Variable count : E -> nat.
Notation pays := (pays count).

(** Between [p] and the end [L] of the data. *)
Definition even {A} (L p : nat) (_ : A) (q k : nat) : Prop := (p <= q <= L /\ k <= 2 * (q - p))%nat.
Definition over (L p : nat) (_ k : nat) : Prop := (k <= 2 * (L - p) + 19)%nat.

Lemma even_bind {X A C} L p (m : M E X A) (f : A -> M E X C) : pays p (even L p) (over L p) m ->
  (forall a q, (p <= q <= L)%nat -> pays q (even L q) (over L q) (f a)) -> pays p (even L p) (over L p) (bind m f).
Proof.
  intros Hm Hf. eapply pays_bind; [exact Hm|]. intros a q k [H1 H2]. eapply pays_imp; [apply Hf, H1| |].
  - intros c q' k' [H3 H4]. split; lia.
  - unfold over. intros q' k' H3. lia.
Qed.
Lemma even_ret {X A} L p (a : A) : (p <= L)%nat -> pays p (even L p) (over L p) (@ret E X A a).
Proof. intros H. apply pays_ret. split; lia. Qed.
Lemma even_fail {X A} L p (x : X) : pays p (even L p) (over L p) (@fail E X A x).
Proof. apply pays_fail. unfold over. lia. Qed.
Lemma over_start L p q : over L p q 0.
Proof. unfold over. lia. Qed.
Lemma limit_counts (b b' : buffer E) n : counts_reads count b -> limit_length b n = Some b' -> counts_reads count b'.
Proof.
  intros H Hl. unfold limit_length in Hl. destruct (Nat.ltb _ _); [discriminate Hl|]. injection Hl as <-.
  intros p k e. cbn [rd]. unfold limited_rd. destruct (Nat.ltb _ _); [cbn; lia|]. destruct (_ <? _)%N; [cbn; lia|]. apply H.
Qed.

Lemma pays_slice_in (b : buffer E) p a n : good_buffer b -> counts_reads count b ->
  pays p (fun _ q k => q = p /\ k = 1%nat /\ (N.of_nat a + n <= N.of_nat (total_len b))%N) (fun q k => q = p /\ k = 1%nat) (read_slice b a n).
Proof.
  intros Hb Hrd e. pose proof (pays_slice count b Hrd p a n e) as H. unfold read_slice in *.
  destruct (rd b a n e) as [[l|x] e'] eqn:Hx; destruct H as (k & Hk & H); exists k; (split; [exact Hk|]); [|exact H].
  apply Hb in Hx. destruct H as [_ ->]. repeat split. lia.
Qed.
Lemma pays_byte_in (b : buffer E) p a : good_buffer b -> counts_reads count b ->
  pays p (fun _ q k => q = p /\ k = 1%nat /\ (S a <= total_len b)%nat) (fun q k => q = p /\ k = 1%nat) (read_byte b a).
Proof.
  intros Hb Hrd. unfold read_byte. eapply pays_bind; [apply pays_slice_in; assumption|]. intros l q k (-> & -> & H).
  destruct l as [|x [|]]; [apply pays_panic|apply pays_ret|apply pays_panic]; repeat split; lia.
Qed.

Section Source.
Variable r : registry E.
Hypothesis Hres : lookup_is_free count r.
Hypothesis Htidy : registry_inhabited r.
Hypothesis Hr : good_registry r.

Section Buffer.
Variable b : buffer E.
Hypothesis Hb : good_buffer b.
Hypothesis Hrd : counts_reads count b.

Lemma even_type p id P : cycle_check (checker_of P) = [] -> (p <= total_len b)%nat ->
  pays p (even (total_len b) p) (over (total_len b) p) (decode_with_type b r (Symbol id) P).
Proof.
  intros HP Hp e. pose proof (fair_type count r b Hrd Hres Htidy p (Symbol id) P I e) as H.
  pose proof (decode_with_type_post b r Hb Hr (Symbol id) P p e I HP) as H2. unfold post in H2.
  destruct (decode_with_type b r (Symbol id) P p e) as [[o q] e']. destruct H as (k & Hk & H). exists k. split; [exact Hk|].
  destruct H2 as [H2 _]. destruct o; destruct H as [H3 H4]; unfold even, over; lia.
Qed.
Lemma even_at p id : (p <= total_len b)%nat -> pays p (even (total_len b) p) (over (total_len b) p) (decode_as_type_at_position b r id).
Proof. apply even_type. reflexivity. Qed.
Lemma even_all p id : pays p (even (total_len b) 0) (over (total_len b) 0) (decode_all_body b r id).
Proof.
  unfold decode_all_body. apply pays_set. apply even_bind; [apply even_at, Nat.le_0_l|]. intros out q Hq. apply pays_get.
  destruct (Nat.eqb _ _); [apply even_ret, Hq|apply even_fail].
Qed.
End Buffer.
End Source.

(** *** Transactions *)
Section Sign.
Context {ME : Type}.
Variable m : metadata E ME.
Hypothesis Hres : lookup_is_free count (m_types m).
Hypothesis Htidy : registry_inhabited (m_types m).
Hypothesis Hr : good_registry (m_types m).

Lemma even_call (b : buffer E) p : good_buffer b -> counts_reads count b -> (p <= total_len b)%nat ->
  pays p (even (total_len b) p) (over (total_len b) p) (decode_as_call_unmarked b m).
Proof.
  intros Hb Hrd Hp. unfold decode_as_call_unmarked. eapply still_bind; [apply pays_map_err, pays_lift|apply over_start|].
  intros id _. apply even_bind; [apply pays_map_err, even_type; auto|]. intros x q Hq.
  destruct (x_data x); try apply even_fail. apply even_ret, Hq.
Qed.

Variable b : buffer E.
Hypothesis Hb : good_buffer b.
Hypothesis Hrd : counts_reads count b.
Notation L := (total_len b).

Lemma even_extensions_loop l : forall p, (p <= L)%nat -> pays p (even L p) (over L p) (extensions_loop b (m_types m) l).
Proof.
  induction l as [|[i id] l IH]; intros p Hp; cbn [extensions_loop]; [apply even_ret, Hp|].
  apply even_bind; [apply even_type; auto|]. intros x q Hq. apply even_bind; [apply IH, Hq|]. intros tl q2 Hq2. apply even_ret, Hq2.
Qed.
Lemma even_extensions g p : (p <= L)%nat -> pays p (even L p) (over L p) (decode_extensions_unmarked b m g).
Proof.
  intros Hp. unfold decode_extensions_unmarked. eapply still_bind; [apply pays_map_err, pays_lift|apply over_start|].
  intros l _. apply even_bind; [apply pays_map_err, even_extensions_loop, Hp|]. intros x q Hq. apply pays_get.
  destruct (negb _); [apply even_fail|].
  eapply still_bind; [apply pays_map_err, pays_lift|apply over_start|]. intros nv _.
  eapply still_bind; [apply pays_lift|apply over_start|]. intros _ _. apply even_ret, Hq.
Qed.

Lemma pays_mark p : pays p (fun mk q k => q = p /\ (k <= S (call_start mk) /\ 0 < call_start mk <= extensions_start mk /\ extensions_start mk <= L)%nat)
  (fun _ k => (k <= 19)%nat) (@mark E ME b).
Proof.
  intros e. pose proof (mark_runs b m Hb p e) as H1. revert e H1.
  assert (H : pays p (fun mk q k => q = p /\ k = S (call_start mk)) (fun _ k => (k <= 19)%nat) (@mark E ME b)).
  { unfold mark. eapply pays_bind.
    { apply pays_map_err. eapply pays_imp; [apply pays_local, (pays_get_compact count b Hrd)|intros x q k H; exact H|].
      intros q k (_ & q' & _ & H). lia. }
    intros [n cs] q k (-> & Hk & Hcs). cbn [fst snd] in *. eapply pays_bind.
    { eapply pays_imp; [apply pays_catch, (pays_slice count b Hrd)|intros a q k' H; exact H|]. intros q k' [_ ->]. lia. }
    intros [l|x] q k' [-> ->]; [apply pays_ret|apply pays_fail]; cbn [call_start]; lia. }
  intros e. specialize (H e). destruct (mark b p e) as [[o q] e']. destruct H as (k & Hk & H). intros H1. exists k. split; [exact Hk|].
  destruct o; [|exact H..]. cbn [runs] in H1. destruct H as [-> ->]. lia.
Qed.

Lemma pays_transaction g p : pays p (fun t _ k => (k <= 2 * L + match tp_call t with inl _ => 0 | inr _ => 19 end)%nat) (fun _ k => (k <= 2 * L + 19)%nat) (parse_transaction b m g).
Proof.
  unfold parse_transaction. eapply pays_bind.
  { eapply pays_imp; [apply pays_mark|intros mk q k H; exact H|]. intros q k H. cbn beta in H. lia. }
  intros mk q k (-> & Hk & Hc & He). eapply pays_bind with (Q := fun _ q k' => (k' <= 2 * (L - extensions_start mk))%nat /\ q = p).
  { unfold decode_extensions. eapply pays_bind.
    { eapply pays_imp; [apply pays_local, even_extensions, He|intros x q k' H; exact H|].
      intros q k' (_ & q' & H). unfold over in H. cbn beta. lia. }
    intros [x q'] q k' (-> & H1 & H2). cbn [fst snd] in *. apply pays_ret. lia. }
  intros x q k' [Hk' ->]. eapply pays_bind with (Q := fun c q k'' => (k'' <= 2 * (extensions_start mk - call_start mk) + match c with inl _ => 0 | inr _ => 19 end)%nat).
  2: { intros c q k'' Hk''. apply pays_ret. cbn [tp_call]. destruct c; lia. }
  eapply pays_imp.
  { apply pays_catch with (Q := fun _ q k'' => (k'' <= 2 * (extensions_start mk - call_start mk))%nat)
      (R := fun _ k'' => (k'' <= 2 * (extensions_start mk - call_start mk) + 19)%nat).
    unfold decode_as_call, data_no_extensions. destruct (limit_length b (extensions_start mk)) as [b'|] eqn:Hl; [|apply pays_panic; lia].
    destruct (good_limit _ _ _ Hb Hl) as (Hb' & HL & _). eapply pays_bind.
    { eapply pays_imp; [apply pays_local, (even_call b' (call_start mk) Hb' (limit_counts _ _ _ Hrd Hl)); lia|intros y q k'' H; exact H|].
      intros q k'' (_ & q' & H). unfold over in H. cbn beta. lia. }
    intros [c q'] q k'' (-> & H1 & H2). cbn [fst snd] in *. destruct (Nat.eqb _ _); [apply pays_ret|apply pays_fail]; lia. }
  - intros [c|y] q k'' H; cbn beta iota in *; lia.
  - intros q k'' H. cbn beta in *. lia.
Qed.

Lemma pays_transaction_unmarked g p : pays p (fun _ _ k => (k <= 2 * L)%nat) (fun _ k => (k <= 2 * L + 19)%nat) (parse_transaction_unmarked b m g).
Proof.
  unfold parse_transaction_unmarked. eapply pays_bind.
  { eapply pays_imp; [apply pays_local with (Q := even L 0) (R := over L 0)|intros y q k H; exact H|].
    - apply even_bind; [apply even_call; auto; lia|]. intros c q Hq. apply even_bind; [apply even_extensions, Hq|]. intros x q2 Hq2.
      apply even_ret, Hq2.
    - intros q k (_ & q' & H). unfold over in H. cbn beta. lia. }
  intros [y q'] q k (-> & H1 & H2). cbn [fst snd] in *. apply pays_ret. lia.
Qed.

Lemma pays_unchecked p : pays p (fun _ _ k => (k <= 2 * L)%nat) (fun _ k => (k <= 2 * L + 19)%nat) (decode_as_unchecked_extrinsic b m).
Proof.
  unfold decode_as_unchecked_extrinsic. eapply pays_bind.
  { eapply pays_imp; [apply pays_local with (Q := even L 0) (R := over L 0)|intros y q k H; exact H|].
    2: { intros q k (_ & q' & H). unfold over in H. cbn beta. lia. }
    unfold decode_unchecked_body. eapply still_bind; [apply pays_map_err, pays_lift|apply over_start|]. intros ps _. cbv zeta.
    eapply pays_bind.
    { apply pays_map_err. eapply pays_imp; [apply (pays_get_compact count b Hrd)|intros n q k H; exact H|].
      intros q k [-> H]. unfold over. lia. }
    intros n q k [Hk ->]. apply pays_get. cbn [Nat.add].
    destruct (N.ltb_spec (N.of_nat L) (N.of_nat k + n)) as [H1|H1]; [apply pays_fail; unfold over; lia|].
    destruct (N.ltb_spec (N.of_nat k + n) (N.of_nat L)) as [H2|H2]; [apply pays_fail; unfold over; lia|].
    assert (Hle : (k <= L)%nat) by lia. clear H1 H2.
    eapply pays_bind.
    { apply pays_map_err. eapply pays_imp; [apply pays_byte_in; assumption|intros v q k' H; exact H|].
      intros q k' [-> ->]. unfold over. lia. }
    intros v q k' (-> & -> & HS). apply pays_set. unfold VERSION_LENGTH.
    eapply pays_imp with (Q := even L (k + 1)) (R := over L (k + 1)).
    2: { intros a q k' [H1 H2]. unfold even. lia. }
    2: { intros q k' H1. unfold over in *. lia. }
    assert (Hs : (k + 1 <= L)%nat) by lia. generalize dependent (k + 1)%nat. clear k Hk Hle HS. intros s Hs.
    eapply still_bind; [apply pays_map_err, pays_lift|apply over_start|]. intros ver _.
    destruct (negb _); [apply even_fail|].
    assert (Hat : forall id q, (q <= L)%nat -> pays q (even L q) (over L q) (@map_err E _ (unchecked_err ME) _ UParsing (decode_as_type_at_position b (m_types m) id))).
    { intros id q Hq. apply pays_map_err, even_at; assumption. }
    assert (Hcall : forall (f : psdata pdata -> unchecked) q, (q <= L)%nat -> pays q (even L q) (over L q)
      (do call <- map_err UParsing (decode_as_type_at_position b (m_types m) (ep_call ps));
       match x_data call with DCall c => ret (f c) | _ => fail (@UnexpectedCallTy ME (ep_call ps)) end)).
    { intros f q Hq. apply even_bind; [apply Hat, Hq|]. intros c q2 Hq2. destruct (x_data c); try apply even_fail. apply even_ret, Hq2. }
    destruct (N.land v VERSION_MASK_NEG =? 0)%N; [apply Hcall, Hs|].
    apply even_bind; [apply Hat, Hs|]. intros a1 q1 Hq1. apply even_bind; [apply Hat, Hq1|]. intros a2 q2 Hq2.
    apply even_bind; [apply Hat, Hq2|]. intros a3 q3 Hq3. apply Hcall, Hq3. }
  intros [y q'] q k (-> & H1 & H2). cbn [fst snd] in *. apply pays_ret. lia.
Qed.
End Sign.

(** *** Storage *)
Section Storage.
Variable blake2_128 twox_64 : bytes -> bytes.
Variable r : registry E.
Hypothesis Hres : lookup_is_free count r.
Hypothesis Htidy : registry_inhabited r.
Hypothesis Hr : good_registry r.

Section Key.
Variable b : buffer E.
Hypothesis Hb : good_buffer b.
Hypothesis Hrd : counts_reads count b.
Notation L := (total_len b).

Lemma even_cut len k id p : (0 < len)%N -> (p <= L)%nat -> pays p (even L p) (over L p) (cut_hash len k id b).
Proof.
  intros Hlen Hp. unfold cut_hash. apply pays_get. eapply pays_bind.
  { apply pays_map_err. eapply pays_imp; [apply pays_slice_in; assumption|intros l q k' H; exact H|]. intros q k' [-> ->]. unfold over. lia. }
  intros l q k' (-> & -> & H). destruct (_ =? _)%N; [|apply pays_panic; unfold over; lia]. apply pays_set, pays_ret. unfold even. lia.
Qed.
Lemma even_check len h id p : (0 < len)%N -> (p <= L)%nat -> pays p (even L p) (over L p) (check_hash len h id b r).
Proof.
  intros Hlen Hp. unfold check_hash. apply pays_get. eapply pays_bind.
  { apply pays_map_err. eapply pays_imp; [apply pays_slice_in; assumption|intros l q k' H; exact H|]. intros q k' [-> ->]. unfold over. lia. }
  intros l q k' (-> & -> & H). destruct (_ =? _)%N; [|apply pays_panic; unfold over; lia]. cbv zeta. apply pays_set.
  assert (Hs : (S p <= p + N.to_nat len <= L)%nat) by lia. generalize dependent (p + N.to_nat len)%nat. intros s Hs.
  eapply pays_bind.
  { apply pays_map_err. eapply pays_imp; [apply (even_type r Hres Htidy Hr b Hb Hrd s); [reflexivity|lia]|intros x q k' Hx; exact Hx|].
    unfold over. intros q k' Hx. lia. }
  intros x q k' [H1 H2]. apply pays_get. eapply pays_bind.
  { eapply pays_imp; [apply pays_catch, (pays_slice count b Hrd)|intros a q' k2 Hx; exact Hx|]. intros q' k2 [-> ->]. unfold over. lia. }
  intros [c|y] q' k2 [-> ->]; [|apply pays_panic; unfold over; lia].
  destruct (bytes_eqb _ _); [apply pays_ret; unfold even|apply pays_fail; unfold over]; lia.
Qed.
Lemma even_part h id p : (p <= L)%nat -> pays p (even L p) (over L p) (key_part_decode blake2_128 twox_64 h id b r).
Proof.
  intros Hp. destruct h; cbn [key_part_decode]; try (apply even_cut; [reflexivity|exact Hp]); try (apply even_check; [reflexivity|exact Hp]).
  apply even_bind; [apply pays_map_err, even_type; auto|]. intros x q Hq. apply even_ret, Hq.
Qed.
Lemma even_parts hs : forall ids p, (p <= L)%nat -> pays p (even L p) (over L p) (key_parts blake2_128 twox_64 hs ids b r).
Proof.
  induction hs as [|h hs IH]; intros [|id ids] p Hp; cbn [key_parts]; try (apply even_ret, Hp).
  apply even_bind; [apply even_part, Hp|]. intros x q Hq. apply even_bind; [apply IH, Hq|]. intros tl q2 Hq2. apply even_ret, Hq2.
Qed.
Lemma even_key hs id p : (p <= L)%nat -> pays p (even L p) (over L p) (process_key_body blake2_128 twox_64 hs id b r).
Proof.
  intros Hp. unfold process_key_body. apply even_bind.
  - assert (Hmany : pays p (even L p) (over L p)
      (do t <- map_err (fun x => ParsingKey (PRegistry x)) (resolve_ty r id);
        match t_def t with
        | TTuple elems =>
            if Nat.eqb (List.length elems) (List.length hs) then
              do content <- key_parts blake2_128 twox_64 hs elems b r;
              ret (KTuple content (info_from_ty t))
            else fail MultipleHashesNumberMismatch
        | _ => fail MultipleHashesNotATuple
        end)).
    { eapply still_bind; [apply pays_map_err, (pays_resolve count r Hres Htidy)|apply over_start|]. intros t _.
      destruct (t_def t); try apply even_fail. destruct (Nat.eqb _ _); [|apply even_fail].
      apply even_bind; [apply even_parts, Hp|]. intros x q Hq. apply even_ret, Hq. }
    destruct hs as [|h [|h2 hs]]; try exact Hmany.
    apply even_bind; [apply even_part, Hp|]. intros x q Hq. apply even_ret, Hq.
  - intros x q Hq. apply pays_get. destruct (Nat.eqb _ _); [apply even_ret, Hq|apply even_fail].
Qed.
Lemma pays_key hs id s p : (s <= L)%nat ->
  pays p (fun _ q k => (k <= 2 * (L - s))%nat) (fun _ k => (k <= 2 * (L - s) + 19)%nat) (process_key_mapped blake2_128 twox_64 hs id b s r).
Proof.
  intros Hs. unfold process_key_mapped. eapply pays_bind.
  { eapply pays_imp; [apply pays_local, even_key, Hs|intros y q k H; exact H|]. intros q k (_ & q' & H). unfold over in H. cbn beta. lia. }
  intros [x q'] q k (-> & H1 & H2). cbn [fst snd] in *. apply pays_ret. lia.
Qed.
End Key.

Lemma pays_all_m (v : buffer E) id p : good_buffer v -> counts_reads count v ->
  pays p (fun _ _ k => (k <= 2 * total_len v)%nat) (fun _ k => (k <= 2 * total_len v + 19)%nat) (decode_all_m v r id).
Proof.
  intros Hb Hrd. unfold decode_all_m. eapply pays_bind.
  { eapply pays_imp; [apply pays_local, (even_all r Hres Htidy Hr v Hb Hrd)|intros y q k H; exact H|]. intros q k (_ & q' & H). unfold over in H. cbn beta. lia. }
  intros [x q'] q k (-> & H1 & H2). cbn [fst snd] in *. apply pays_ret. lia.
Qed.

Lemma pays_storage (b v : buffer E) entry p : good_buffer b -> counts_reads count b -> good_buffer v -> counts_reads count v ->
  pays p (fun _ _ k => (k <= 2 * (total_len b - PREFIX_LEN) + 2 * total_len v)%nat)
    (fun _ k => (k <= 2 * (total_len b - PREFIX_LEN) + 2 * total_len v + 19)%nat)
    (decode_as_storage_entry blake2_128 twox_64 b v entry r).
Proof.
  intros Hb Hrd Hv Hvd. unfold decode_as_storage_entry. cbv zeta.
  destruct (Nat.ltb_spec (total_len b) PREFIX_LEN) as [HL|HL]; [apply pays_fail; lia|].
  assert (Hval : forall k docs id p, pays p (fun _ _ k => (k <= 2 * total_len v)%nat) (fun _ k => (k <= 2 * total_len v + 19)%nat)
     (do value <- map_err ParsingValue (decode_all_m v r id); ret (Storage k value docs))).
  { intros k docs id q. eapply pays_bind; [apply pays_map_err, pays_all_m; assumption|]. intros x q2 k2 H. apply pays_ret. cbn beta in H. lia. }
  destruct (en_ty entry) as [id|hs kid vid].
  - destruct (negb _); [apply pays_fail; lia|]. eapply pays_imp; [apply Hval| |]; cbn beta; intros; lia.
  - eapply pays_bind.
    { eapply pays_imp; [apply (pays_key b Hb Hrd); exact HL|intros y q k H; exact H|]. cbn beta. intros; lia. }
    cbn beta. intros key q k Hk. eapply pays_imp; [apply Hval| |]; cbn beta; intros; lia.
Qed.
End Storage.
End Reads.
