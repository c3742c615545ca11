(** C71: the number of type lookups. `ResolveType::resolve_ty` may be slow (metadata in external
    memory), and is supplied by the user: the number of its calls is the other part of what a parse
    costs (reads of data: C65). Statements; proofs in ProofLookups.v, ProofLookups2.v and
    ProofLookups3.v, specification in SpecLookups.v. *)
From Coq Require Import Lia ZifyBool ZifyNat ZifyN.
From Verif Require Import Base Compact Types Indicators Decode Sign Unchecked Storage Spec SpecSource SpecSize
  Api ApiSign ApiStorage CheckWf ProofBase ProofSafe2 SpecLookups ProofReads ProofLookups ProofLookups2 ProofLookups3 Sample SampleChain.
From Verif Require TestWestend TestStatemint PropSize.
Local Open Scope string_scope.
Local Open Scope list_scope.

(** Decoding makes at most [effort types] lookups for a byte that it uses and for the type itself;
    whether it succeeds or fails, for whatever data and types (types that contain themselves
    included), in whatever memory. The number depends on the types only. Vectors of elements
    without bytes are excluded. *)
Theorem c71_decode : forall E (count : E -> nat) (types : list ty) (b : buffer E) (r : registry E),
  reading_is_free count b -> counts_lookups count r -> answers_from types r -> no_empty_elements types ->
  forall id pos e o q e', decode_as_type_at_position b r id pos e = (o, q, e') ->
  pos <= q /\ count e' <= count e + effort types * (1 + (q - pos)).
Proof.
  intros E count types b r Hrd Hres Hans Hno id pos e o q e' H.
  pose proof (look_at count types r b Hrd Hres Hans Hno pos id e) as HF. rewrite H in HF.
  destruct HF as (k & Hk & HF). assert (Hb : bounded types pos q k) by (destruct o; exact HF). destruct Hb as [H1 H2].
  change (1 + (q - pos)) with (S (q - pos)). lia.
Qed.
Print Assumptions c71_decode.

Theorem c71_decode_all : forall E (count : E -> nat) (types : list ty) (b : buffer E) (r : registry E),
  reading_is_free count b -> counts_lookups count r -> answers_from types r -> no_empty_elements types ->
  good_buffer b -> good_registry r ->
  forall id e o e', decode_all_as_type b r id e = (o, e') ->
  count e' <= count e + effort types * (1 + total_len b).
Proof.
  intros E count types b r Hrd Hres Hans Hno Hb Hr id e o e' H. unfold decode_all_as_type in H.
  pose proof (within_all count types Hno r Hres Hans Hr b Hb Hrd 0 id e) as HF.
  destruct (decode_all_body b r id 0 e) as [[o' q] e2]. injection H as <- <-. destruct HF as (k & Hk & HF).
  assert (HF' : k <= effort types * (1 + total_len b)).
  { rewrite Nat.mul_add_distr_l. destruct o'; [destruct HF as [H1 H2]|..]; unfold beyond in *; try lia.
    assert (effort types * q <= effort types * total_len b) by (apply Nat.mul_le_mono_l; lia). lia. }
  lia.
Qed.
Print Assumptions c71_decode_all.

(** Transactions: the call, and two types for each signed extension. *)
Theorem c71_transaction : forall E ME (count : E -> nat) (types : list ty) (b : buffer E) (m : metadata E ME),
  reading_is_free count b -> counts_lookups count (m_types m) -> answers_from types (m_types m) -> no_empty_elements types ->
  good_buffer b -> good_registry (m_types m) ->
  forall g pos e o q e', parse_transaction b m g pos e = (o, q, e') ->
  count e' <= count e + effort types * (1 + 2 * extensions_number m + total_len b).
Proof.
  intros E ME count types b m Hrd Hres Hans Hno Hb Hr g pos e o q e' H.
  pose proof (pays_transaction count types Hno m Hres Hans Hr b Hb Hrd g pos e) as HF. rewrite H in HF.
  destruct HF as (k & Hk & HF). unfold total in HF. destruct o; lia.
Qed.
Print Assumptions c71_transaction.
Theorem c71_transaction_unmarked : forall E ME (count : E -> nat) (types : list ty) (b : buffer E) (m : metadata E ME),
  reading_is_free count b -> counts_lookups count (m_types m) -> answers_from types (m_types m) -> no_empty_elements types ->
  good_buffer b -> good_registry (m_types m) ->
  forall g pos e o q e', parse_transaction_unmarked b m g pos e = (o, q, e') ->
  count e' <= count e + effort types * (1 + 2 * extensions_number m + total_len b).
Proof.
  intros E ME count types b m Hrd Hres Hans Hno Hb Hr g pos e o q e' H.
  pose proof (pays_transaction_unmarked count types Hno m Hres Hans Hr b Hb Hrd g pos e) as HF. rewrite H in HF.
  destruct HF as (k & Hk & HF). unfold total in HF. destruct o; lia.
Qed.
Print Assumptions c71_transaction_unmarked.

(** Extrinsics: address, signature, extra and call. *)
Theorem c71_unchecked : forall E ME (count : E -> nat) (types : list ty) (b : buffer E) (m : metadata E ME),
  reading_is_free count b -> counts_lookups count (m_types m) -> answers_from types (m_types m) -> no_empty_elements types ->
  good_buffer b -> good_registry (m_types m) ->
  forall pos e o q e', decode_as_unchecked_extrinsic b m pos e = (o, q, e') ->
  count e' <= count e + effort types * (4 + total_len b).
Proof.
  intros E ME count types b m Hrd Hres Hans Hno Hb Hr pos e o q e' H.
  pose proof (pays_unchecked count types Hno m Hres Hans Hr b Hb Hrd pos e) as HF. rewrite H in HF.
  destruct HF as (k & Hk & HF). unfold total in HF. destruct o; lia.
Qed.
Print Assumptions c71_unchecked.

(** Storage entries: the tuple of the key, its parts, and the value. *)
Theorem c71_storage : forall E (count : E -> nat) (types : list ty) blake2_128 twox_64 (key value : buffer E) (r : registry E),
  reading_is_free count key -> reading_is_free count value -> counts_lookups count r -> answers_from types r -> no_empty_elements types ->
  good_buffer key -> good_buffer value -> good_registry r ->
  forall entry pos e o q e', decode_as_storage_entry blake2_128 twox_64 key value entry r pos e = (o, q, e') ->
  count e' <= count e + effort types * (2 + key_parts_number entry + (total_len key - 32 + total_len value)).
Proof.
  intros E count types bl tw key value r Hk Hv Hres Hans Hno Hgk Hgv Hr entry pos e o q e' H.
  pose proof (pays_storage count types Hno bl tw r Hres Hans Hr key value entry pos Hgk Hk Hgv Hv e) as HF. rewrite H in HF.
  change PREFIX_LEN with 32 in HF. destruct HF as (k & Hk' & HF). unfold total in HF. destruct o; lia.
Qed.
Print Assumptions c71_storage.

(** ** The hypotheses *)

(** Types in memory with a count of the lookups: the answers are those of `PortableRegistry`. *)
Theorem c71_counted : forall types, counts_lookups (fun k => k) (counted_types types) /\ answers_from types (counted_types types) /\
  good_registry (counted_types types) /\
  forall id k, resolve (counted_types types) id k = (fst (resolve (portable types) id tt), S k).
Proof.
  intros types. split; [intros id k; cbn; lia|].
  assert (Ha : answers_from types (counted_types types)).
  { intros id e t e' H. cbn [resolve counted_types] in H. unfold portable_resolve in H. destruct (lookup types id); [|discriminate H].
    injection H as <- _. reflexivity. }
  split; [exact Ha|]. split; [|intros id k; reflexivity].
  intros id e t e' H. apply Ha in H. cbn [reg_bound counted_types]. unfold lookup in H.
  destruct (N.ltb_spec id (N.of_nat (List.length types))); [assumption|discriminate H].
Qed.
Print Assumptions c71_counted.
Lemma slice_free (data : bytes) : reading_is_free (fun k : nat => k) (slice_buffer data).
Proof. intros p n e. cbn [rd slice_buffer]. unfold slice_rd. destruct (Nat.ltb _ _); [cbn; lia|]. destruct (_ <? _)%N; cbn; lia. Qed.

(** So for every text of bytes and every list of types without vectors of empty elements. *)
Theorem c71_in_memory : forall types data id, no_empty_elements types ->
  forall o k, decode_all_as_type (slice_buffer data) (counted_types types) id 0 = (o, k) ->
  k <= effort types * (1 + List.length data).
Proof.
  intros types data id Hno o k H. destruct (c71_counted types) as (H1 & H2 & H3 & _).
  exact (c71_decode_all nat (fun k => k) types (slice_buffer data) (counted_types types) (slice_free data) H1 H2 Hno
    (good_slice data) H3 id 0 o k H).
Qed.
Print Assumptions c71_in_memory.

(** The two real chains. *)
Theorem c71_westend : forall data id o k,
  decode_all_as_type (slice_buffer data) (counted_types TestWestend.md_types) id 0 = (o, k) ->
  k <= effort TestWestend.md_types * (1 + List.length data).
Proof. intros data id. apply c71_in_memory, PropSize.westend_well_formed. Qed.
Print Assumptions c71_westend.
Theorem c71_statemint : forall data id o k,
  decode_all_as_type (slice_buffer data) (counted_types TestStatemint.md_types) id 0 = (o, k) ->
  k <= effort TestStatemint.md_types * (1 + List.length data).
Proof. intros data id. apply c71_in_memory, PropSize.statemint_well_formed. Qed.
Print Assumptions c71_statemint.

(** ** Examples *)

(** A transaction of 75 bytes takes 11 lookups. *)
Definition counted_chain : metadata nat string :=
  Metadata nat string (counted_types chain_types) (ch_spec sample_chain) (ch_call sample_chain) (ch_extensions sample_chain)
    (ch_params sample_chain) (ch_version sample_chain).
Example c71_call : elements_take_bytes chain_types = true /\
  exists x, parse_transaction (slice_buffer (prefixed the_call ++ mortal_extensions)) counted_chain None 0 0 = (Ok x, 0, 11).
Proof. split; [vm_compute; reflexivity|]. eexists. vm_compute. reflexivity. Qed.

(** Vectors of elements without bytes: one byte of data, and as many lookups as it says. The
    hypothesis is needed. *)
Definition nothing_twice : list ty :=
  [Ty [] [] (TSequence 1) []; Ty [] [] (TTuple [2; 2]%N) []; Ty [] [] (TTuple []) []].
Theorem c71_empty_elements : ~ no_empty_elements nothing_twice /\
  exists x, decode_all_as_type (slice_buffer [252]%N) (counted_types nothing_twice) 0 0 = (Ok x, 128).
Proof.
  split; [|eexists; vm_compute; reflexivity].
  intros H. apply (H 0%N (Ty [] [] (TSequence 1) []) 1%N (VTuple [VTuple []; VTuple []]) eq_refl eq_refl). reflexivity.
Qed.
Print Assumptions c71_empty_elements.

(** ** How large the number may be *)

(** Tuples of two, [n] types deep around the empty tuple: each holds the next one twice. Decoding
    no data at all takes [2 ^ (n + 1) - 1] lookups, for every [n]: a bound for each type without
    the exponent would be wrong. *)
Definition twice (n i : nat) : ty :=
  Ty [] [] (TTuple (if Nat.eqb i n then [] else [N.of_nat (S i); N.of_nat (S i)])) [].
Definition doubling (n : nat) : list ty := map (twice n) (seq 0 (S n)).
Lemma doubling_lookup n i : i <= n -> lookup (doubling n) (N.of_nat i) = Some (twice n i).
Proof.
  intros Hi. unfold lookup, doubling. rewrite map_length, seq_length. destruct (N.ltb_spec (N.of_nat i) (N.of_nat (S n))) as [_|H]; [|lia].
  rewrite Nat2N.id. rewrite (map_nth_error (twice n) i (seq 0 (S n)) (d := i)); [reflexivity|].
  rewrite (nth_error_nth' _ 0) by (rewrite seq_length; lia). rewrite seq_nth by lia. reflexivity.
Qed.
Lemma fresh_check c i : Forall (fun j => (j < i)%N) (cycle_check c) ->
  check_id c i = inl (Checker (compact_at c) (c_hint c) (cycle_check c ++ [i])).
Proof.
  intros H. unfold check_id. destruct (existsb (N.eqb i) (cycle_check c)) eqn:He; [|reflexivity].
  apply existsb_exists in He. destruct He as (j & Hj & Hij). rewrite Forall_forall in H. specialize (H j Hj). lia.
Qed.
Lemma doubling_run n b k : forall i fuel P p e, i + k = n -> k < fuel -> compact_at (checker_of P) = None ->
  Forall (fun j => (j <= N.of_nat i)%N) (cycle_check (checker_of P)) ->
  exists x, decode b (counted_types (doubling n)) fuel (Resolved (twice n i) (N.of_nat i)) P p e = (Ok x, p, e + (2 ^ S k - 2)).
Proof.
  induction k as [|k IH]; intros i [|fuel] P p e Hi Hf Hc Hcyc; try lia; cbn [decode].
  - assert (i = n) as -> by lia. unfold decode_body, twice. rewrite Nat.eqb_refl. cbn. rewrite Nat.add_0_r. eexists. reflexivity.
  - assert (Hp : checker_of (add_info P (info_from_ty (twice n i))) = checker_of P) by (unfold add_info; destruct (info_is_empty _); reflexivity).
    unfold decode_body. unfold bind at 1, ret at 1. unfold bind at 1. 
    assert (Hk : checked_from_type b (counted_types (doubling n)) (twice n i) p e = (Ok CNone, p, e)) by reflexivity.
    rewrite Hk. cbn [decode_checked]. unfold decode_plain.
    assert (Hd : t_def (twice n i) = TTuple [N.of_nat (S i); N.of_nat (S i)]).
    { unfold twice. destruct (Nat.eqb_spec i n); [lia|reflexivity]. }
    rewrite Hd, Hp. unfold bind at 1.
    assert (Hrej : reject_compact_m (checker_of P) p e = (Ok tt, p, e)) by (unfold reject_compact_m, reject_compact; rewrite Hc; reflexivity).
    rewrite Hrej.
    assert (Hround : forall q e0, exists t P1, resolve_ty (counted_types (doubling n)) (N.of_nat (S i)) q e0 = (Ok t, q, S e0) /\
      for_ty (forget_hint (checker_of P)) t (N.of_nat (S i)) = inl P1 /\
      exists x, decode b (counted_types (doubling n)) fuel (Resolved t (N.of_nat (S i))) P1 q (S e0) = (Ok x, q, S e0 + (2 ^ S k - 2))).
    { intros q e0. assert (Hrs : resolve_ty (counted_types (doubling n)) (N.of_nat (S i)) q e0 = (Ok (twice n (S i)), q, S e0)).
      { unfold resolve_ty. cbn [resolve counted_types]. unfold portable_resolve. rewrite doubling_lookup by lia. reflexivity. }
      set (c := forget_hint (checker_of P)). assert (Hc1 : compact_at c = None) by exact Hc.
      assert (Hck : check_id c (N.of_nat (S i)) = inl (Checker (compact_at c) (c_hint c) (cycle_check c ++ [N.of_nat (S i)]))).
      { apply fresh_check. eapply Forall_impl; [|exact Hcyc]. cbn beta. intros j Hj. lia. }
      exists (twice n (S i)). eexists. split; [exact Hrs|]. unfold for_ty, update_for_ty. rewrite Hck. split; [reflexivity|].
      apply IH; [lia|lia|unfold update_from_path; cbn [c_hint]; destruct (c_hint c); exact Hc1|].
      assert (Hcc : cycle_check (update_from_path (Checker (compact_at c) (c_hint c) (cycle_check c ++ [N.of_nat (S i)])) (t_path (twice n (S i)))) =
        cycle_check (checker_of P) ++ [N.of_nat (S i)]) by (unfold update_from_path; cbn [c_hint]; destruct (c_hint c); reflexivity).
      cbn [checker_of with_checker]. rewrite Hcc. apply Forall_app. split; [|constructor; [lia|constructor] ].
      eapply Forall_impl; [|exact Hcyc]. cbn beta. intros j Hj. lia. }
    destruct (Hround p e) as (t1 & P1 & A1 & A2 & x1 & A3).
    destruct (Hround p (S e + (2 ^ S k - 2))) as (t2 & P2 & B1 & B2 & x2 & B3).
    eexists. cbn [tuple_loop].
    unfold bind at 1. unfold bind at 1. unfold map_err at 1. rewrite A1. unfold bind at 1. unfold lift_p at 1. rewrite A2. cbn [map_err lift ret].
    unfold bind at 1. rewrite A3.
    unfold bind at 1. unfold bind at 1. unfold map_err at 1. rewrite B1. unfold bind at 1. unfold lift_p at 1. rewrite B2. cbn [map_err lift ret].
    unfold bind at 1. rewrite B3. unfold bind, ret. cbn [fst].
    f_equal. assert (2 ^ S (S k) = 2 * 2 ^ S k) by apply Nat.pow_succ_r'. assert (2 ^ S k = 2 * 2 ^ k) by apply Nat.pow_succ_r'.
    assert (2 ^ k <> 0) by (apply Nat.pow_nonzero; lia). lia.
Qed.
Theorem c71_exponential : forall n, no_empty_elements (doubling n) /\ List.length (doubling n) = S n /\
  exists x, decode_all_as_type (slice_buffer []) (counted_types (doubling n)) 0 0 = (Ok x, 2 ^ S n - 1).
Proof.
  intros n. split; [|split; [unfold doubling; rewrite map_length, seq_length; reflexivity|] ].
  - intros id t el v Hl Hd. unfold lookup in Hl. destruct (_ <? _)%N; [|discriminate Hl]. apply nth_error_In, in_map_iff in Hl.
    destruct Hl as (i & <- & _). discriminate Hd.
  - unfold decode_all_as_type, decode_all_body, decode_as_type_at_position, decode_with_type, decode_fuel.
    unfold bind at 1, set_pos. unfold bind at 1. cbn [decode]. unfold decode_body.
    assert (Hres : resolve_ty (counted_types (doubling n)) 0%N 0 0 = (Ok (twice n 0), 0, 1)).
    { unfold resolve_ty. cbn [resolve counted_types]. unfold portable_resolve. change 0%N with (N.of_nat 0). rewrite (doubling_lookup n 0) by lia. reflexivity. }
    pose proof (doubling_run n (slice_buffer []) n 0 (S (S (total_len (@slice_buffer nat [])) * (reg_bound (counted_types (doubling n)) + 3)))
      propagated_new 0 1 (Nat.add_0_l n)) as Hrun.
    cbn [decode] in Hrun. unfold decode_body in Hrun. unfold bind at 1, ret at 1 in Hrun.
    destruct Hrun as [x Hx]; [|reflexivity|constructor|].
    { cbn [counted_types reg_bound]. unfold doubling. rewrite map_length, seq_length. lia. }
    eexists. unfold bind at 1. unfold bind at 1. unfold map_err at 1. rewrite Hres. unfold ret at 1. 
    change (N.of_nat 0) with 0%N in Hx. cbv zeta in Hx |- *. rewrite Hx. unfold bind, get_pos. cbn [total_len slice_buffer List.length Nat.eqb ret]. f_equal.
    assert (2 ^ S n = 2 * 2 ^ n) by apply Nat.pow_succ_r'. assert (2 ^ n <> 0) by (apply Nat.pow_nonzero; lia). lia.
Qed.
Print Assumptions c71_exponential.
