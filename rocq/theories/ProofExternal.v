(** External memory with persistent faults: transactions (C41). *)
From Coq Require Import Lia ZifyBool ZifyNat ZifyN.
From Verif Require Import Base Compact Types Indicators Decode Sign Spec ProofBase ProofTables ProofPeel ProofSpec SpecSource
  ProofSafe ProofSafe2 ProofFuel SpecTrack ProofTrack ProofIso Api ApiSign.
Local Open Scope list_scope.

Definition faulty_of {E} (b1 : buffer E) (b2 : buffer unit) : Prop :=
  total_len b1 = total_len b2 /\
  forall p n, (forall e, fst (rd b1 p n e) = fst (rd b2 p n tt)) \/
              (forall e, exists c, fst (rd b1 p n e) = inr (BExternal c)).

Section External.
Context {E ME : Type}.
Variable c : chain ME.
Local Notation types := (ch_types c).
Variable r : registry E.
Hypothesis Hr : faulty_registry r types.
Hypothesis Hs : straight_signatures types.

Lemma faulty_of_good (b1 : buffer E) b2 : faulty_of b1 b2 -> good_buffer b2 -> good_buffer b1.
Proof.
  intros [Hl H] Hg p n e l e' Hrd. rewrite Hl. destruct (H p n) as [H1|H1]; specialize (H1 e); rewrite Hrd in H1; cbn [fst] in H1.
  - destruct (rd b2 p n tt) as [x e2] eqn:H2. cbn [fst] in H1. subst x. exact (Hg _ _ _ _ _ H2).
  - destruct H1 as (x & H1). discriminate.
Qed.

Lemma trk_ext_type (b1 : buffer E) (b2 : buffer unit) id P : faulty_of b1 b2 -> good_buffer b2 ->
  cycle_check (checker_of P) = [] ->
  trk 0 0 True pext (shift_err 0) eq (decode_with_type b1 r (Symbol id) P)
    (decode_with_type b2 (portable types) (Symbol id) P).
Proof.
  intros Hb Hg Hc. pose proof Hb as [Hl Hrd]. pose proof Hr as [Hrl Hres]. apply trk_type; auto.
  - lia.
  - intros p n e1 [] _. rewrite Nat.add_0_r. destruct (Hrd p n) as [H|H]; specialize (H e1).
    + rewrite H. destruct (fst (rd b2 p n tt)); [reflexivity|]. right. rewrite shift_buf_0. reflexivity.
    + destruct H as (y & ->). left. eauto.
  - intros i e. destruct (Hres i) as [H|H]; specialize (H e).
    + rewrite H. cbn [resolve portable]. unfold portable_resolve. destruct (lookup types i); [reflexivity|].
      right. split; reflexivity.
    + destruct H as (y & ->). left. eauto.
  - intros p n e e' y H. destruct (Hrd p n) as [H1|H1]; [|apply H1]. rewrite (H1 e), <- (H1 e') in H. eauto.
  - intros i e e' y H. destruct (Hres i) as [H1|H1]; [|apply H1]. rewrite (H1 e), <- (H1 e') in H. eauto.
  - apply good_one, Hg.
  - exact (faulty_of_good b1 b2 Hb Hg).
  - apply (faulty_good_reg r types Hr).
Qed.

(** The errors that a fault can give. *)
Definition fault (x : signable_err ME) : Prop := x = CutSignable \/ exists y, x = Parsing y /\ pext y.
Local Notation same := (fun x => x).

Definition meta : metadata E ME :=
  Metadata E ME r (ch_spec c) (ch_call c) (ch_extensions c) (ch_params c) (ch_version c).

Lemma trk_same_err {A} (m1 : M E parser_err A) (m2 : M unit parser_err A) :
  trk 0 0 True pext (shift_err 0) eq m1 m2 -> trk 0 0 True fault same eq (map_err Parsing m1) (map_err Parsing m2).
Proof.
  intros H. eapply trk_map_err; [exact H| |].
  - intros x Hx. right. eauto.
  - intros x. rewrite shift_err_0. reflexivity.
Qed.

Lemma trk_lift_meta A (x : A + ME) : trk 0 0 True fault same eq
    (map_err MetaStructure (@lift E ME A x)) (map_err MetaStructure (@lift unit ME A x)).
Proof. destruct x as [a|x]; intros p e1 e2 Hp; right; cbn; auto. Qed.

Lemma trk_local {X A} (ext : X -> Prop) p0 (m1 : M E X A) (m2 : M unit X A) :
  trk 0 0 True ext same eq m1 m2 -> trk 0 0 True ext same eq (at_local p0 m1) (at_local p0 m2).
Proof.
  intros H p e1 e2 Hp. specialize (H p0 e1 e2 (Nat.le_0_l _)). rewrite Nat.add_0_r in *. unfold at_local, tracked, bad in *.
  destruct (m1 p0 e1) as [[o1 q1] e1'], (m2 p0 e2) as [[o2 q2] e2'].
  destruct H as [(_ & [-> |(x & -> & Hx)])|H].
  - destruct o2; left; auto.
  - destruct o2; left; split; eauto.
  - destruct o1, o2; try contradiction; right; auto. destruct H as (-> & -> & _).
    rewrite !Nat.add_0_r. repeat split; lia.
Qed.

Lemma trk_mark (b1 : buffer E) b2 : faulty_of b1 b2 -> good_buffer b2 ->
  trk 0 0 True fault same eq (mark b1) (mark b2).
Proof.
  intros Hb Hg. unfold mark.
  assert (Hrd : forall p n e1 e2, (0 <= p)%nat ->
    match fst (rd b1 p n e1) with
    | inl l => fst (rd b2 (p + 0) n e2) = inl l
    | inr x => (True /\ exists c, x = BExternal c) \/ fst (rd b2 (p + 0) n e2) = inr (shift_buf 0 x)
    end).
  { intros p n e1 [] _. rewrite Nat.add_0_r. destruct Hb as [_ H]. destruct (H p n) as [H1|H1]; specialize (H1 e1).
    - rewrite H1. destruct (fst (rd b2 p n tt)); [reflexivity|]. right. rewrite shift_buf_0. reflexivity.
    - destruct H1 as (y & ->). left. eauto. }
  assert (Hl : total_len b2 = (total_len b1 + 0)%nat) by (destruct Hb; lia).
  assert (Hpers : forall p n e e' c, fst (rd b1 p n e) = inr (BExternal c) -> exists c', fst (rd b1 p n e') = inr (BExternal c')).
  { intros p n e e' y H. destruct Hb as [_ Hb]. destruct (Hb p n) as [H1|H1]; [|apply H1]. rewrite (H1 e), <- (H1 e') in H. eauto. }
  eapply trk_bind.
  { eapply trk_map_err with (ext := pext) (g := fun x => x).
    - apply trk_local. intros p e1 e2 Hp. pose proof (trk_get_compact b1 b2 r types 0 0 True Hl (proj1 Hr) Hrd U32 p e1 e2 Hp) as H.
      unfold tracked in *. destruct (get_compact U32 b1 p e1) as [[o1 q1] e1'], (get_compact U32 b2 (p + 0)%nat e2) as [[o2 q2] e2'].
      destruct H as [H|H]; [left; exact H|right]. destruct o1, o2; auto. rewrite shift_err_0 in H. exact H.
    - intros x _. left. reflexivity.
    - reflexivity. }
  intros [n start] ? <-. intros p e1 e2 Hp. specialize (Hrd start n e1 e2 (Nat.le_0_l _)). rewrite Nat.add_0_r in Hrd.
  unfold bind, catch, read_slice. destruct (rd b1 start n e1) as [[l|x] e1'], (rd b2 start n e2) as [[l2|x2] e2']; cbn [fst] in Hrd.
  - right. cbn. repeat split; lia.
  - discriminate.
  - left. split; [exact I|]. right. exists CutSignable. split; [reflexivity|left; reflexivity].
  - right. reflexivity.
Qed.

Lemma trk_call_unmarked (b1 : buffer E) b2 : faulty_of b1 b2 -> good_buffer b2 ->
  trk 0 0 True fault same eq (decode_as_call_unmarked b1 meta) (decode_as_call_unmarked b2 (chain_metadata c)).
Proof.
  intros Hb Hg. unfold decode_as_call_unmarked. cbn [meta chain_metadata m_call_ty m_types].
  eapply trk_bind; [apply trk_lift_meta|]. intros id ? <-.
  eapply trk_bind; [apply trk_same_err, trk_ext_type; auto|]. intros x ? <-.
  destruct (x_data x); try (apply trk_fail; reflexivity). apply trk_ret. reflexivity.
Qed.

Lemma limit_faulty (b1 : buffer E) b2 n : faulty_of b1 b2 -> good_buffer b2 ->
  match limit_length b1 n, limit_length b2 n with
  | Some b1', Some b2' => faulty_of b1' b2' /\ good_buffer b2'
  | None, None => True
  | _, _ => False
  end.
Proof.
  intros [Hl H] Hg. pose proof (fun b' => good_limit b2 b' n Hg) as Hg'. unfold limit_length in *. rewrite Hl.
  destruct (total_len b2 <? n)%nat; [exact I|]. split; [|apply Hg'; reflexivity]. split; [reflexivity|].
  intros p k. cbn [rd]. unfold limited_rd. destruct (n <? p)%nat; [left; reflexivity|].
  destruct (_ <? _)%N; [left; reflexivity|]. apply H.
Qed.

Lemma trk_call (b1 : buffer E) b2 mk : faulty_of b1 b2 -> good_buffer b2 ->
  trk 0 0 True fault same eq (decode_as_call b1 mk meta) (decode_as_call b2 mk (chain_metadata c)).
Proof.
  intros Hb Hg. unfold decode_as_call, data_no_extensions. pose proof (limit_faulty b1 b2 (extensions_start mk) Hb Hg) as H.
  destruct (limit_length b1 _) as [b1'|], (limit_length b2 _) as [b2'|]; try contradiction; [|apply trk_panic].
  destruct H as [H1 H2]. eapply trk_bind; [apply trk_local, trk_call_unmarked; auto|].
  intros [call q] ? <-. destruct (Nat.eqb _ _); [apply trk_ret; reflexivity|apply trk_fail; reflexivity].
Qed.

Lemma trk_exts_loop (b1 : buffer E) b2 l : faulty_of b1 b2 -> good_buffer b2 ->
  trk 0 0 True pext (shift_err 0) eq (extensions_loop b1 r l) (extensions_loop b2 (portable types) l).
Proof.
  intros Hb Hg. induction l as [|[i id] l IH]; cbn [extensions_loop]; [apply trk_ret; reflexivity|].
  eapply trk_bind; [apply trk_ext_type; auto|]. intros x ? <-. eapply trk_bind; [exact IH|]. intros y ? <-.
  apply trk_ret. reflexivity.
Qed.

Lemma trk_extensions_unmarked (b1 : buffer E) b2 g : faulty_of b1 b2 -> good_buffer b2 ->
  trk 0 0 True fault same eq (decode_extensions_unmarked b1 meta g) (decode_extensions_unmarked b2 (chain_metadata c) g).
Proof.
  intros Hb Hg. unfold decode_extensions_unmarked. cbn [meta chain_metadata m_types m_signed_extensions m_spec_name_version].
  eapply trk_bind; [apply trk_lift_meta|]. intros l ? <-.
  eapply trk_bind; [apply trk_same_err, trk_exts_loop; auto|].
  intros xs ? <-. eapply trk_bind; [apply trk_get|]. intros a b [-> Ha].
  destruct Hb as [Hlen _]. rewrite Hlen, Nat.add_0_r.
  destruct (Nat.eqb a (total_len b2)); cbn [negb]; [|apply trk_fail; reflexivity].
  eapply trk_bind; [apply trk_lift_meta|]. intros nv ? <-.
  eapply trk_bind; [|intros; apply trk_ret; reflexivity].
  destruct (check_extensions xs (printed_spec_version nv) g) as [[]|x]; [apply trk_ret; reflexivity|apply trk_fail; reflexivity].
Qed.

(** Parsed transactions: the extensions are the same; the call is the same, or could not
    be read. *)
Definition like (t1 t2 : transaction_parsed ME) : Prop :=
  tp_extensions t1 = tp_extensions t2 /\
  (tp_call t1 = tp_call t2 \/ exists y, tp_call t1 = inr (Parsing y) /\ pext y).

Lemma call_pos {E0} (b : buffer E0) mk (m : metadata E0 ME) p e : snd (fst (decode_as_call b mk m p e)) = p.
Proof.
  unfold decode_as_call, data_no_extensions. destruct (limit_length b _) as [b'|]; [|reflexivity]. unfold bind, at_local.
  destruct (decode_as_call_unmarked b' m (call_start mk) e) as [[[x|x| |] q] e']; try reflexivity.
  destruct (Nat.eqb _ _); reflexivity.
Qed.

Lemma catch_call (b1 : buffer E) b2 mk xs : faulty_of b1 b2 -> good_buffer b2 -> (extensions_start mk <= total_len b2)%nat ->
  trk 0 0 True fault same like
    (do cr <- catch (decode_as_call b1 mk meta); ret (TransactionParsed cr xs))
    (do cr <- catch (decode_as_call b2 mk (chain_metadata c)); ret (TransactionParsed cr xs)).
Proof.
  intros Hb Hg Hn p e1 e2 Hp. pose proof (trk_call b1 b2 mk Hb Hg p e1 e2 Hp) as H.
  assert (Hn1 : (extensions_start mk <= total_len b1)%nat) by (destruct Hb as [-> _]; exact Hn).
  pose proof (call_runs b1 meta (faulty_of_good _ _ Hb Hg) (faulty_good_reg r types Hr) mk p e1 Hn1) as R1.
  pose proof (call_runs b2 (chain_metadata c) Hg (good_portable _) mk (p + 0)%nat e2 Hn) as R2.
  pose proof (call_pos b1 mk meta p e1) as P1. pose proof (call_pos b2 mk (chain_metadata c) (p + 0)%nat e2) as P2.
  assert (Hcut : fst (fst (decode_as_call b1 mk meta p e1)) <> Err CutSignable).
  { unfold decode_as_call, data_no_extensions. destruct (limit_length b1 _); [|discriminate]. unfold bind, at_local, decode_as_call_unmarked.
    unfold bind, map_err, lift. destruct (m_call_ty meta); [|discriminate]. unfold ret, fail.
    destruct (decode_with_type _ _ _ _ _ _) as [[[x|x| |] q] e']; try discriminate.
    destruct (x_data x); try discriminate. destruct (Nat.eqb _ _); discriminate. }
  unfold bind, catch, tracked, bad in *. destruct (decode_as_call b1 mk meta p e1) as [[o1 q1] e1'].
  destruct (decode_as_call b2 mk (chain_metadata c) (p + 0)%nat e2) as [[o2 q2] e2'].
  cbn [fst snd] in Hcut, P1, P2. subst q1 q2. destruct H as [(_ & [-> |(x & -> & [-> |(y & -> & Hy)])])|H].
  - destruct R1.
  - contradiction.
  - destruct o2 as [d2|x2| |]; try destruct R2; right; unfold like, ret; cbn [tp_extensions tp_call]; repeat split; eauto; lia.
  - destruct o1 as [d1|x1| |], o2 as [d2|x2| |]; try contradiction; try destruct R1.
    + destruct H as (-> & _). right. unfold like, ret. repeat split; auto; lia.
    + subst x2. right. unfold like, ret. repeat split; auto; lia.
Qed.

Theorem external_transaction (b : buffer E) data g e o q e' : faulty_copy b data ->
  parse_transaction b meta g 0 e = (o, q, e') ->
  (exists x, o = Err x /\ fault x) \/
  match o, transaction c g data with
  | Ok t1, Ok t2 => like t1 t2
  | Err x, Err y => x = y
  | _, _ => False
  end.
Proof.
  intros Hb Hp. pose proof (good_slice (E := unit) data) as Hg.
  assert (Ht : trk 0 0 True fault same like (parse_transaction b meta g)
                 (parse_transaction (slice_buffer data) (chain_metadata c) g)).
  { unfold parse_transaction. eapply trk_bind with (R := fun mk mk2 => mk = mk2 /\ (extensions_start mk <= total_len (@slice_buffer unit data))%nat).
    - intros p e1 e2 Hle. pose proof (mark_runs (slice_buffer data) (chain_metadata c) Hg (p + 0)%nat e2) as Hm.
      pose proof (trk_mark b (slice_buffer data) Hb Hg p e1 e2 Hle) as H. unfold tracked in *.
      destruct (mark b p e1) as [[o1 q1] e1'], (mark (slice_buffer data) (p + 0)%nat e2) as [[o2 q2] e2'].
      destruct H as [H|H]; [left; exact H|right]. destruct o1, o2; auto. destruct H as (-> & H). repeat split; try apply H.
      cbn in Hm. cbn. lia.
    - intros mk ? [<- Hn]. eapply trk_bind with (R := eq); [|intros xs ? <-; apply catch_call; auto].
      unfold decode_extensions. eapply trk_bind; [apply trk_local, trk_extensions_unmarked; auto|].
      intros x ? <-. apply trk_ret. reflexivity. }
  pose proof (transaction_runs b meta (faulty_good _ _ Hb) (faulty_good_reg r types Hr) g 0 e) as R1.
  specialize (Ht 0%nat e tt (le_n _)). cbn [Nat.add] in Ht. unfold transaction, result, tracked, bad in *. rewrite Hp in R1, Ht.
  destruct (parse_transaction (slice_buffer data) (chain_metadata c) g 0 tt) as [[o2 q2] e2]. cbn [fst].
  destruct Ht as [(_ & [-> |(x & -> & Hx)])|Ht].
  - destruct R1.
  - left. eauto.
  - right. destruct o, o2; try contradiction; try exact R1; [exact (proj1 Ht)|symmetry; exact Ht].
Qed.

Theorem external_unmarked (b : buffer E) data g e o q e' : faulty_copy b data ->
  parse_transaction_unmarked b meta g 0 e = (o, q, e') ->
  (exists x, o = Err x /\ fault x) \/ o = transaction_unmarked c g data.
Proof.
  intros Hb Hp. pose proof (good_slice (E := unit) data) as Hg.
  assert (Ht : trk 0 0 True fault same eq (parse_transaction_unmarked b meta g)
                 (parse_transaction_unmarked (slice_buffer data) (chain_metadata c) g)).
  { unfold parse_transaction_unmarked. eapply trk_bind with (R := eq); [apply trk_local|intros x ? <-; apply trk_ret; reflexivity].
    eapply trk_bind; [apply trk_call_unmarked; auto|]. intros call ? <-.
    eapply trk_bind; [apply trk_extensions_unmarked; auto|]. intros xs ? <-. apply trk_ret. reflexivity. }
  pose proof (transaction_unmarked_runs b meta (faulty_good _ _ Hb) (faulty_good_reg r types Hr) g 0 e) as R1.
  specialize (Ht 0%nat e tt (le_n _)). cbn [Nat.add] in Ht. unfold transaction_unmarked, result, tracked, bad in *. rewrite Hp in R1, Ht.
  destruct (parse_transaction_unmarked (slice_buffer data) (chain_metadata c) g 0 tt) as [[o2 q2] e2]. cbn [fst].
  destruct Ht as [(_ & [-> |(x & -> & Hx)])|Ht].
  - destruct R1.
  - left. eauto.
  - right. destruct o, o2; try contradiction; try destruct R1; [destruct Ht as [-> _]|rewrite Ht]; reflexivity.
Qed.
End External.
