(** The number of type lookups of the functions of the interface (C71). *)
From Coq Require Import Lia ZifyBool ZifyNat ZifyN.
From Verif Require Import Base Compact Types Indicators Decode Sign Unchecked Storage Spec SpecSource SpecSize SpecLookups
  ProofSafe ProofSafe2 ProofReads ProofLookups ProofLookups2.
Local Open Scope list_scope.

Section Interface.
Context {E : Type}.
Variable count : E -> nat.
Notation pays := (pays count).
Variable types : list ty.
Hypothesis Hno : no_empty_elements types.
Notation KK := (effort types).

(** Between [p] and the end [L] of the data, [j] types. *)
Definition within {A} (L j p : nat) (_ : A) (q n : nat) : Prop := (p <= q <= L /\ n + KK * p <= KK * j + KK * q)%nat.
Definition beyond (L j p : nat) (_ n : nat) : Prop := (n + KK * p <= KK * j + KK * L)%nat.

Lemma within_imp {X A} L j j2 p (m : M E X A) : pays p (within L j p) (beyond L j p) m -> (j <= j2)%nat -> pays p (within L j2 p) (beyond L j2 p) m.
Proof.
  intros H Hj. assert (KK * j <= KK * j2)%nat by (apply Nat.mul_le_mono_l, Hj). eapply pays_imp; [exact H| |].
  - intros a q n [H1 H2]. split; lia.
  - unfold beyond. intros q n H1. lia.
Qed.
Lemma within_bind {X A C} L j1 j2 p (m : M E X A) (f : A -> M E X C) : pays p (within L j1 p) (beyond L j1 p) m ->
  (forall a q, (p <= q <= L)%nat -> pays q (within L j2 q) (beyond L j2 q) (f a)) -> pays p (within L (j1 + j2) p) (beyond L (j1 + j2) p) (bind m f).
Proof.
  intros Hm Hf. eapply pays_bind.
  - eapply pays_imp; [exact Hm|intros a q n H; exact H|]. unfold beyond. intros q n H. rewrite Nat.mul_add_distr_l.
    assert (0 <= KK * j2)%nat by apply Nat.le_0_l. lia.
  - intros a q k [H1 H2]. eapply pays_imp; [apply Hf, H1| |].
    + intros c q' k' [H3 H4]. rewrite ?Nat.mul_add_distr_l in *. split; rewrite ?Nat.mul_add_distr_l; lia.
    + unfold beyond. intros q' k' H3. rewrite Nat.mul_add_distr_l. lia.
Qed.
Lemma within_ret {X A} L p (a : A) : (p <= L)%nat -> pays p (within L 0 p) (beyond L 0 p) (@ret E X A a).
Proof. intros H. apply pays_ret. split; lia. Qed.
Lemma within_fail {X A} L j p (x : X) : (p <= L)%nat -> pays p (within L j p) (beyond L j p) (@fail E X A x).
Proof. intros H. apply pays_fail. unfold beyond. assert (KK * p <= KK * L)%nat by (apply Nat.mul_le_mono_l, H). lia. Qed.
Lemma within_map {X A C} L j p (m : M E X A) (g : A -> C) : pays p (within L j p) (beyond L j p) m ->
  pays p (within L j p) (beyond L j p) (do x <- m; ret (g x)).
Proof. intros H. eapply pays_bind; [exact H|]. intros a q n Ha. apply pays_ret. rewrite Nat.add_0_r. exact Ha. Qed.
(** A step that stays. *)
Lemma within_cost {X A C} L n1 j1 j2 p (P : A -> Prop) (m : M E X A) (f : A -> M E X C) : (p <= L)%nat -> (n1 <= KK * j1)%nat ->
  pays p (costs n1 p P) (halts n1 p) m -> (forall a, P a -> pays p (within L j2 p) (beyond L j2 p) (f a)) ->
  pays p (within L (j1 + j2) p) (beyond L (j1 + j2) p) (bind m f).
Proof.
  intros Hp Hn Hm Hf. assert (KK * p <= KK * L)%nat by (apply Nat.mul_le_mono_l, Hp). eapply pays_bind.
  - eapply pays_imp; [exact Hm|intros a q n H1; exact H1|]. unfold beyond. intros q n [-> H1]. rewrite Nat.mul_add_distr_l. lia.
  - intros a q k (-> & H1 & Ha). eapply pays_imp; [apply (Hf a Ha)| |].
    + intros c q' k' [H3 H4]. split; rewrite ?Nat.mul_add_distr_l; lia.
    + unfold beyond. intros q' k' H3. rewrite Nat.mul_add_distr_l. lia.
Qed.
Lemma within_free {X A C} L j p (P : A -> Prop) (m : M E X A) (f : A -> M E X C) : (p <= L)%nat ->
  pays p (costs 0 p P) (halts 0 p) m -> (forall a, P a -> pays p (within L j p) (beyond L j p) (f a)) ->
  pays p (within L j p) (beyond L j p) (bind m f).
Proof. intros Hp. apply (within_cost L 0 0 j p P m f Hp). lia. Qed.
Lemma K_pos : (1 <= KK)%nat.
Proof. rewrite effort_eq. unfold own. lia. Qed.

Lemma limit_free (b b' : buffer E) n : reading_is_free count b -> limit_length b n = Some b' -> reading_is_free count b'.
Proof.
  intros H Hl. unfold limit_length in Hl. destruct (Nat.ltb _ _); [discriminate Hl|]. injection Hl as <-.
  intros p k e. cbn [rd]. unfold limited_rd. destruct (Nat.ltb _ _); [cbn; lia|]. destruct (_ <? _)%N; [cbn; lia|]. apply H.
Qed.
(** A successful read is inside the data. *)
Lemma free_slice_in (b : buffer E) p a n : good_buffer b -> reading_is_free count b ->
  pays p (costs 0 p (fun _ => (N.of_nat a + n <= N.of_nat (total_len b))%N)) (halts 0 p) (read_slice b a n).
Proof.
  intros Hb Hrd e. pose proof (free_slice count b Hrd p a n e) as H. unfold read_slice in *.
  destruct (rd b a n e) as [[l|x] e'] eqn:Hx; destruct H as (k & Hk & H); exists k; (split; [exact Hk|]); [|exact H].
  apply Hb in Hx. destruct H as (_ & H & _). repeat split; [exact H|lia].
Qed.
Lemma free_byte_in (b : buffer E) p a : good_buffer b -> reading_is_free count b ->
  pays p (costs 0 p (fun _ => (S a <= total_len b)%nat)) (halts 0 p) (read_byte b a).
Proof.
  intros Hb Hrd. unfold read_byte. apply (cost_bind count 0 0 p _ _ _ _ (free_slice_in b p a 1 Hb Hrd)). intros l H.
  destruct l as [|x [|]]; [apply pays_panic; split; lia|apply cost_ret; lia|apply pays_panic; split; lia].
Qed.

Section Source.
Variable r : registry E.
Hypothesis Hres : counts_lookups count r.
Hypothesis Hans : answers_from types r.
Hypothesis Hr : good_registry r.

Section Buffer.
Variable b : buffer E.
Hypothesis Hb : good_buffer b.
Hypothesis Hrd : reading_is_free count b.
Notation L := (total_len b).

Lemma within_type p id P : cycle_check (checker_of P) = [] -> (p <= L)%nat ->
  pays p (within L 1 p) (beyond L 1 p) (decode_with_type b r (Symbol id) P).
Proof.
  intros HP Hp e. pose proof (look_type count types r b Hrd Hres Hans Hno p (Symbol id) P I HP e) as H.
  pose proof (decode_with_type_post b r Hb Hr (Symbol id) P p e I HP) as H2. unfold post in H2.
  destruct (decode_with_type b r (Symbol id) P p e) as [[o q] e']. destruct H as (k & Hk & H). exists k. split; [exact Hk|].
  destruct H2 as [H2 _]. assert (Hb' : bounded types p q k) by (destruct o; exact H). clear H. destruct Hb' as [H3 H4].
  assert (q <= L)%nat by lia. assert (KK * q <= KK * L)%nat by (apply Nat.mul_le_mono_l; assumption).
  replace q with (p + (q - p))%nat in H0 by lia. rewrite Nat.mul_add_distr_l in H0. rewrite Nat.mul_succ_r in H4.
  assert (KK * q = KK * p + KK * (q - p))%nat by (rewrite <- Nat.mul_add_distr_l; f_equal; lia).
  destruct o; unfold within, beyond; lia.
Qed.
Lemma within_at p id : (p <= L)%nat -> pays p (within L 1 p) (beyond L 1 p) (decode_as_type_at_position b r id).
Proof. apply within_type. reflexivity. Qed.
Lemma within_all p id : pays p (within L 1 0) (beyond L 1 0) (decode_all_body b r id).
Proof.
  unfold decode_all_body. apply pays_set. change 1%nat with (1 + 0)%nat at 1 2. apply within_bind; [apply within_at, Nat.le_0_l|].
  intros out q Hq. apply pays_get. destruct (Nat.eqb _ _); [apply within_ret, Hq|apply within_fail, Hq].
Qed.
End Buffer.
End Source.

(** *** Transactions *)
Section Sign.
Context {ME : Type}.
Variable m : metadata E ME.
Hypothesis Hres : counts_lookups count (m_types m).
Hypothesis Hans : answers_from types (m_types m).
Hypothesis Hr : good_registry (m_types m).

Lemma within_call (b : buffer E) p : good_buffer b -> reading_is_free count b -> (p <= total_len b)%nat ->
  pays p (within (total_len b) 1 p) (beyond (total_len b) 1 p) (decode_as_call_unmarked b m).
Proof.
  intros Hb Hrd Hp. unfold decode_as_call_unmarked.
  apply (within_free _ _ _ (fun _ => True)); [exact Hp|apply pays_map_err, cost_lift; auto|]. intros id _.
  change 1%nat with (1 + 0)%nat. apply within_bind; [apply pays_map_err, within_type; auto|]. intros x q Hq.
  destruct (x_data x); try (apply within_fail, Hq). apply within_ret, Hq.
Qed.

Variable b : buffer E.
Hypothesis Hb : good_buffer b.
Hypothesis Hrd : reading_is_free count b.
Notation L := (total_len b).
Notation parts := (extensions_number m).

Lemma within_extensions_loop l : forall p, (p <= L)%nat -> pays p (within L (List.length l) p) (beyond L (List.length l) p) (extensions_loop b (m_types m) l).
Proof.
  induction l as [|[i id] l IH]; intros p Hp; cbn [extensions_loop List.length]; [apply within_ret, Hp|].
  change (S (List.length l)) with (1 + List.length l)%nat.
  apply within_bind; [apply within_type; auto|]. intros x q Hq. apply within_map, IH, Hq.
Qed.
Lemma within_extensions g p : (p <= L)%nat -> pays p (within L (2 * parts) p) (beyond L (2 * parts) p) (decode_extensions_unmarked b m g).
Proof.
  intros Hp. unfold decode_extensions_unmarked.
  apply (within_free _ _ _ (fun l => m_signed_extensions m = inl l)); [exact Hp|apply pays_map_err, cost_lift; auto|]. intros l Hl.
  assert (Hlen : (2 * parts)%nat = (List.length (extension_types l) + 0)%nat).
  { unfold extensions_number, extension_types. rewrite Hl, app_length, !map_length. lia. }
  rewrite Hlen. apply within_bind; [apply pays_map_err, within_extensions_loop, Hp|]. intros x q Hq. apply pays_get.
  destruct (negb _); [apply within_fail, Hq|].
  apply (within_free _ _ _ (fun _ => True)); [apply Hq|apply pays_map_err, cost_lift; auto|]. intros nv _.
  apply (within_free _ _ _ (fun _ => True)); [apply Hq|apply cost_lift; auto|]. intros _ _. apply within_ret, Hq.
Qed.

Lemma free_mark p : pays p (fun mk q n => q = p /\ n = 0%nat /\ (call_start mk <= extensions_start mk <= L)%nat) (fun _ n => n = 0%nat) (@mark E ME b).
Proof.
  intros e. pose proof (mark_runs b m Hb p e) as H1. revert e H1.
  assert (H : pays p (fun _ q n => q = p /\ n = 0%nat) (fun _ n => n = 0%nat) (@mark E ME b)).
  { unfold mark. eapply pays_bind.
    { apply pays_map_err. eapply pays_imp; [apply pays_local, (eat_get_compact count b Hrd)|intros x q k H; exact H|].
      intros q k (_ & q' & -> & _). reflexivity. }
    intros [n cs] q k (-> & -> & _). eapply pays_bind.
    { eapply pays_imp; [apply pays_catch, (free_slice count b Hrd)|intros a q k' H; exact H|]. intros q k' [_ H]. cbn. lia. }
    intros [l|x] q k' H; cbn [Nat.add] in *.
    - destruct H as (-> & H & _). apply pays_ret. split; lia.
    - destruct H as [-> H]. apply pays_fail. lia. }
  intros e. specialize (H e). destruct (mark b p e) as [[o q] e']. destruct H as (k & Hk & H). intros H1. exists k. split; [exact Hk|].
  destruct o; [|exact H..]. cbn [runs] in H1. destruct H as [-> ->]. lia.
Qed.

Definition total (L j : nat) (n : nat) : Prop := (n <= KK * (j + L))%nat.
Lemma pays_transaction g p : pays p (fun _ _ => total L (1 + 2 * parts)) (fun _ => total L (1 + 2 * parts)) (parse_transaction b m g).
Proof.
  unfold parse_transaction, total. rewrite !Nat.mul_add_distr_l. set (x1 := (KK * 1)%nat). set (x2 := (KK * (2 * parts))%nat).
  eapply pays_bind.
  { eapply pays_imp; [apply free_mark|intros mk q k H; exact H|]. intros q k ->. apply Nat.le_0_l. }
  intros mk q k (-> & -> & Hc & He). cbn [Nat.add].
  assert (He' : (KK * extensions_start mk <= KK * L)%nat) by (apply Nat.mul_le_mono_l, He).
  assert (Hc' : (KK * call_start mk <= KK * extensions_start mk)%nat) by (apply Nat.mul_le_mono_l, Hc).
  eapply pays_bind with (Q := fun _ q k' => (k' + KK * extensions_start mk <= x2 + KK * L)%nat /\ q = p).
  { unfold decode_extensions. eapply pays_bind.
    { eapply pays_imp; [apply pays_local, within_extensions, He|intros x q k' H; exact H|].
      intros q k' (_ & q' & H). unfold beyond in H. fold x2 in H. lia. }
    intros [x q'] q k' (-> & H1 & H2). cbn [fst snd] in *. fold x2 in H2. apply pays_ret.
    assert (KK * q' <= KK * L)%nat by (apply Nat.mul_le_mono_l; lia). lia. }
  intros x q k' [Hk' ->]. eapply pays_bind with (Q := fun _ q k'' => (k'' + KK * call_start mk <= x1 + KK * extensions_start mk)%nat).
  2: { intros c q k'' Hk''. apply pays_ret. lia. }
  eapply pays_imp.
  { apply pays_catch with (Q := fun _ q k'' => (k'' + KK * call_start mk <= x1 + KK * extensions_start mk)%nat)
      (R := fun _ k'' => (k'' + KK * call_start mk <= x1 + KK * extensions_start mk)%nat).
    unfold decode_as_call, data_no_extensions. destruct (limit_length b (extensions_start mk)) as [b'|] eqn:Hl; [|apply pays_panic; lia].
    destruct (good_limit _ _ _ Hb Hl) as (Hb' & HL & _). eapply pays_bind.
    { eapply pays_imp; [apply pays_local, (within_call b' (call_start mk) Hb' (limit_free _ _ _ Hrd Hl)); lia|intros y q k'' H; exact H|].
      intros q k'' (_ & q' & H). unfold beyond in H. rewrite HL in H. fold x1 in H. lia. }
    intros [c q'] q k'' (-> & H1 & H2). cbn [fst snd] in *. rewrite HL in H1. fold x1 in H2.
    assert (KK * q' <= KK * extensions_start mk)%nat by (apply Nat.mul_le_mono_l; lia).
    destruct (Nat.eqb _ _); [apply pays_ret|apply pays_fail]; lia. }
  - intros [c|y] q k'' H; exact H.
  - intros q k'' H. cbn beta in *. lia.
Qed.

(** A computation of its own from the start. *)
Lemma total_local {X A} j p (c : M E X A) : pays 0 (within L j 0) (beyond L j 0) c ->
  pays p (fun _ _ => total L j) (fun _ => total L j) (do x <- at_local 0 c; ret (fst x)).
Proof.
  intros H. unfold total. rewrite !Nat.mul_add_distr_l. eapply pays_bind.
  { eapply pays_imp; [apply pays_local, H|intros y q k H1; exact H1|]. intros q k (_ & q' & H1). unfold beyond in H1. lia. }
  intros [y q'] q k (-> & H1 & H2). cbn [fst snd] in *. apply pays_ret.
  assert (KK * q' <= KK * L)%nat by (apply Nat.mul_le_mono_l; lia). lia.
Qed.

Lemma pays_transaction_unmarked g p : pays p (fun _ _ => total L (1 + 2 * parts)) (fun _ => total L (1 + 2 * parts)) (parse_transaction_unmarked b m g).
Proof.
  unfold parse_transaction_unmarked. apply total_local.
  apply within_bind; [apply within_call; auto; lia|]. intros c q Hq. apply within_map, within_extensions, Hq.
Qed.

Lemma pays_unchecked p : pays p (fun _ _ => total L 4) (fun _ => total L 4) (decode_as_unchecked_extrinsic b m).
Proof.
  unfold decode_as_unchecked_extrinsic. apply total_local.
  unfold decode_unchecked_body. apply (within_free _ _ _ (fun _ => True)); [lia|apply pays_map_err, cost_lift; auto|]. intros ps _. cbv zeta.
  eapply pays_bind with (Q := fun _ q n => n = 0%nat).
  { apply pays_map_err. eapply pays_imp; [apply (eat_get_compact count b Hrd)| |]; [intros n q k [-> _]; reflexivity|].
    intros q k [-> H]. unfold beyond. lia. }
  intros n q k ->. apply pays_get. cbn [Nat.add].
  destruct (N.ltb_spec (N.of_nat L) (N.of_nat q + n)) as [H1|H1]; [apply pays_fail; unfold beyond; lia|].
  destruct (N.ltb_spec (N.of_nat q + n) (N.of_nat L)) as [H2|H2]; [apply pays_fail; unfold beyond; lia|].
  assert (Hle : (q <= L)%nat) by lia. clear H1 H2.
  eapply pays_bind.
  { apply pays_map_err. eapply pays_imp; [apply free_byte_in; assumption|intros v q' k' H; exact H|].
    intros q' k' [-> H]. unfold beyond. lia. }
  intros v q' k' (-> & Hk' & HS). assert (k' = 0)%nat as -> by lia. apply pays_set. unfold VERSION_LENGTH. cbn [Nat.add].
  assert (Hs : (q + 1 <= L)%nat) by lia. generalize dependent (q + 1)%nat. clear q Hle HS. intros s Hs.
  eapply pays_imp with (Q := within L 4 s) (R := beyond L 4 s).
  2: { intros a q k [H1 H2]. unfold within. lia. }
  2: { intros q k H1. unfold beyond in *. lia. }
  apply (within_free _ _ _ (fun _ => True)); [exact Hs|apply pays_map_err, cost_lift; auto|]. intros ver _.
  destruct (negb _); [apply within_fail, Hs|].
  assert (Hat : forall id q, (q <= L)%nat -> pays q (within L 1 q) (beyond L 1 q) (@map_err E _ (unchecked_err ME) _ UParsing (decode_as_type_at_position b (m_types m) id))).
  { intros id q Hq. apply pays_map_err, within_at; assumption. }
  assert (Hcall : forall (f : psdata pdata -> unchecked) q, (q <= L)%nat -> pays q (within L 1 q) (beyond L 1 q)
    (do call <- map_err UParsing (decode_as_type_at_position b (m_types m) (ep_call ps));
     match x_data call with DCall c => ret (f c) | _ => fail (@UnexpectedCallTy ME (ep_call ps)) end)).
  { intros f q Hq. change 1%nat with (1 + 0)%nat. apply within_bind; [apply Hat, Hq|]. intros c q2 Hq2.
    destruct (x_data c); try apply within_fail, Hq2. apply within_ret, Hq2. }
  destruct (N.land v VERSION_MASK_NEG =? 0)%N; [apply within_imp with (j := 1%nat); [apply Hcall, Hs|lia]|].
  change 4%nat with (1 + (1 + (1 + 1)))%nat.
  apply within_bind; [apply Hat, Hs|]. intros a1 q1 Hq1. apply within_bind; [apply Hat, Hq1|]. intros a2 q2 Hq2.
  apply within_bind; [apply Hat, Hq2|]. intros a3 q3 Hq3. apply Hcall, Hq3.
Qed.
End Sign.

(** *** Storage *)
Section Storage.
Variable blake2_128 twox_64 : bytes -> bytes.
Variable r : registry E.
Hypothesis Hres : counts_lookups count r.
Hypothesis Hans : answers_from types r.
Hypothesis Hr : good_registry r.

Section Key.
Variable b : buffer E.
Hypothesis Hb : good_buffer b.
Hypothesis Hrd : reading_is_free count b.
Notation L := (total_len b).

Lemma within_cut len k id p : (p <= L)%nat -> pays p (within L 0 p) (beyond L 0 p) (cut_hash len k id b).
Proof.
  intros Hp. unfold cut_hash. apply pays_get.
  assert (HpL : (KK * p <= KK * L)%nat) by (apply Nat.mul_le_mono_l, Hp).
  eapply within_free; [exact Hp|apply pays_map_err, free_slice_in; assumption|].
  intros l Hl. cbv beta in Hl. destruct (_ =? _)%N; [|apply pays_panic; unfold beyond; lia]. apply pays_set, pays_ret.
  assert (KK * p <= KK * (p + N.to_nat len))%nat by (apply Nat.mul_le_mono_l; lia). unfold within. lia.
Qed.
Lemma within_check len h id p : (p <= L)%nat -> pays p (within L 1 p) (beyond L 1 p) (check_hash len h id b r).
Proof.
  intros Hp. unfold check_hash. apply pays_get.
  assert (HpL : (KK * p <= KK * L)%nat) by (apply Nat.mul_le_mono_l, Hp).
  eapply within_free; [exact Hp|apply pays_map_err, free_slice_in; assumption|].
  intros l Hl. cbv beta in Hl. destruct (_ =? _)%N; [|apply pays_panic; unfold beyond; lia]. cbv zeta. apply pays_set.
  assert (Hs : (p <= p + N.to_nat len <= L)%nat) by lia. generalize dependent (p + N.to_nat len)%nat. intros s Hs.
  assert (KK * p <= KK * s)%nat by (apply Nat.mul_le_mono_l; lia).
  eapply pays_imp with (Q := within L 1 s) (R := beyond L 1 s).
  2: { intros a q k [H1 H2]. unfold within. lia. }
  2: { intros q k H1. unfold beyond in *. lia. }
  change 1%nat with (1 + 0)%nat. apply within_bind; [apply pays_map_err, (within_type r Hres Hans Hr b Hb Hrd s); [reflexivity|lia]|].
  intros x q Hq. apply pays_get.
  assert (HqL : (KK * q <= KK * L)%nat) by (apply Nat.mul_le_mono_l, Hq).
  eapply within_free; [apply Hq|apply cost_catch, (free_slice count b Hrd)|].
  intros [c|y] _; [|apply pays_panic; unfold beyond; lia].
  destruct (bytes_eqb _ _); [apply within_ret, Hq|apply within_fail, Hq].
Qed.
Lemma within_part h id p : (p <= L)%nat -> pays p (within L 1 p) (beyond L 1 p) (key_part_decode blake2_128 twox_64 h id b r).
Proof.
  intros Hp. destruct h; cbn [key_part_decode]; try (apply within_check; exact Hp); try (apply within_imp with (j := 0%nat); [apply within_cut; exact Hp|lia]).
  apply within_map, pays_map_err, within_type; auto.
Qed.
Lemma within_parts hs : forall ids p, (p <= L)%nat -> pays p (within L (List.length hs) p) (beyond L (List.length hs) p) (key_parts blake2_128 twox_64 hs ids b r).
Proof.
  induction hs as [|h hs IH]; intros [|id ids] p Hp; cbn [key_parts List.length];
    try (apply within_imp with (j := 0%nat); [apply within_ret, Hp|lia]).
  change (S (List.length hs)) with (1 + List.length hs)%nat.
  apply within_bind; [apply within_part, Hp|]. intros x q Hq. apply within_map, IH, Hq.
Qed.
Lemma within_key hs id p : (p <= L)%nat -> pays p (within L (1 + List.length hs) p) (beyond L (1 + List.length hs) p) (process_key_body blake2_128 twox_64 hs id b r).
Proof.
  intros Hp. unfold process_key_body. rewrite <- (Nat.add_0_r (1 + List.length hs)). apply within_bind.
  - assert (Hmany : pays p (within L (1 + List.length hs) p) (beyond L (1 + List.length hs) p)
      (do t <- map_err (fun x => ParsingKey (PRegistry x)) (resolve_ty r id);
        match t_def t with
        | TTuple elems =>
            if Nat.eqb (List.length elems) (List.length hs) then
              do content <- key_parts blake2_128 twox_64 hs elems b r;
              ret (KTuple content (info_from_ty t))
            else fail MultipleHashesNumberMismatch
        | _ => fail MultipleHashesNotATuple
        end)).
    { eapply (within_cost L 1); [exact Hp|pose proof K_pos; lia|apply pays_map_err, (cost_resolve count types r Hres Hans)|]. intros t _.
      destruct (t_def t); try apply within_fail, Hp. destruct (Nat.eqb _ _); [|apply within_fail, Hp].
      apply within_map, within_parts, Hp. }
    destruct hs as [|h [|h2 hs]]; try exact Hmany.
    apply within_imp with (j := 1%nat); [apply within_map, within_part, Hp|cbn; lia].
  - intros x q Hq. apply pays_get. destruct (Nat.eqb _ _); [apply within_ret, Hq|apply within_fail, Hq].
Qed.
Lemma pays_key hs id s p : (s <= L)%nat ->
  pays p (fun _ _ n => (n <= KK * (1 + List.length hs) + KK * (L - s))%nat) (fun _ n => (n <= KK * (1 + List.length hs) + KK * (L - s))%nat)
    (process_key_mapped blake2_128 twox_64 hs id b s r).
Proof.
  intros Hs. assert (HL : (KK * L = KK * s + KK * (L - s))%nat) by (rewrite <- Nat.mul_add_distr_l; f_equal; lia).
  unfold process_key_mapped. eapply pays_bind.
  { eapply pays_imp; [apply pays_local, within_key, Hs|intros y q k H; exact H|]. intros q k (_ & q' & H). unfold beyond in H.
    generalize dependent (KK * (1 + List.length hs))%nat. intros. lia. }
  intros [x q'] q k (-> & H1 & H2). cbn [fst snd] in *. apply pays_ret. assert (KK * q' <= KK * L)%nat by (apply Nat.mul_le_mono_l; lia).
  generalize dependent (KK * (1 + List.length hs))%nat. intros. lia.
Qed.
End Key.

Lemma pays_all_m (v : buffer E) id p : good_buffer v -> reading_is_free count v ->
  pays p (fun _ _ => total (total_len v) 1) (fun _ => total (total_len v) 1) (decode_all_m v r id).
Proof.
  intros Hb Hrd. unfold decode_all_m. apply total_local. apply (within_all r Hres Hans Hr v Hb Hrd).
Qed.

Lemma pays_storage (b v : buffer E) entry p : good_buffer b -> reading_is_free count b -> good_buffer v -> reading_is_free count v ->
  pays p (fun _ _ => total (total_len b - PREFIX_LEN + total_len v) (2 + key_parts_number entry))
    (fun _ => total (total_len b - PREFIX_LEN + total_len v) (2 + key_parts_number entry))
    (decode_as_storage_entry blake2_128 twox_64 b v entry r).
Proof.
  intros Hb Hrd Hv Hvd. unfold decode_as_storage_entry. cbv zeta. unfold total.
  destruct (Nat.ltb_spec (total_len b) PREFIX_LEN) as [HL|HL]; [apply pays_fail, Nat.le_0_l|].
  assert (Hval : forall k docs id p, pays p (fun _ _ => total (total_len v) 1) (fun _ => total (total_len v) 1)
     (do value <- map_err ParsingValue (decode_all_m v r id); ret (Storage k value docs))).
  { intros k docs id q. eapply pays_bind; [apply pays_map_err, pays_all_m; assumption|]. intros x q2 k2 H. apply pays_ret. cbn beta in H. rewrite Nat.add_0_r. exact H. }
  unfold key_parts_number. destruct (en_ty entry) as [id|hs kid vid].
  - destruct (negb _); [apply pays_fail, Nat.le_0_l|]. eapply pays_imp; [apply Hval| |]; unfold total; intros.
    all: eapply Nat.le_trans; [eassumption|apply Nat.mul_le_mono_l; lia].
  - assert (HT : (KK * (2 + List.length hs + (total_len b - PREFIX_LEN + total_len v)) =
        KK * (1 + List.length hs) + KK * (total_len b - PREFIX_LEN) + KK * (1 + total_len v))%nat) by (rewrite <- !Nat.mul_add_distr_l; f_equal; lia).
    rewrite HT. clear HT. generalize (pays_key b Hb Hrd hs kid PREFIX_LEN p HL).
    generalize (KK * (1 + List.length hs))%nat (KK * (total_len b - PREFIX_LEN))%nat. intros x1 x2 Hkey.
    eapply pays_bind.
    { eapply pays_imp; [exact Hkey|intros y q k H; exact H|]. cbn beta. intros; lia. }
    cbn beta. intros key q k Hk. eapply pays_imp; [apply Hval| |]; unfold total; cbn beta; intros; lia.
Qed.
End Storage.
End Interface.
