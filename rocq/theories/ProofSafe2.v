(** No panic and no exhausted recursion bound in the functions built on the decoder, for
    any well-behaved source. *)
From Coq Require Import Lia ZifyBool ZifyNat ZifyN Relations.
From Verif Require Import Base Compact Types Indicators Decode Sign Unchecked Storage Spec ProofBase
  ProofTables ProofPeel SpecSource ProofSafe.
Local Open Scope list_scope.

Lemma good_slice {E} data : good_buffer (@slice_buffer E data).
Proof.
  intros p n e l e'. cbn [rd slice_buffer total_len]. unfold slice_rd.
  destruct (List.length data <? p)%nat eqn:H1; [discriminate|].
  destruct (N.of_nat (List.length data) <? N.of_nat p + n)%N eqn:H2; [discriminate|].
  intros H. injection H as <- _. rewrite slice_length; lia.
Qed.

Lemma readable_slice {E} data : all_readable (@slice_buffer E data).
Proof.
  intros p n e H. cbn [rd slice_buffer total_len] in *. unfold slice_rd.
  destruct (List.length data <? p)%nat eqn:H1; [lia|].
  destruct (N.of_nat (List.length data) <? N.of_nat p + n)%N eqn:H2; [lia|]. eauto.
Qed.

Lemma good_portable {E} types : good_registry (@portable E types).
Proof.
  intros id e t e'. cbn [resolve portable reg_bound]. unfold portable_resolve.
  destruct (lookup types id) eqn:H; [|discriminate]. intros _. exact (lookup_lt _ _ _ H).
Qed.

Lemma good_limit {E} (b b' : buffer E) n : good_buffer b -> limit_length b n = Some b' ->
  good_buffer b' /\ total_len b' = n /\ n <= total_len b.
Proof.
  intros Hb. unfold limit_length. destruct (total_len b <? n) eqn:Hn; [discriminate|].
  intros H. injection H as <-. cbn [total_len]. split; [|split; [reflexivity|lia]].
  intros p k e l e'. cbn [rd total_len]. unfold limited_rd.
  destruct (n <? p)%nat eqn:H1; [discriminate|].
  destruct (N.of_nat n <? N.of_nat p + k)%N eqn:H2; [discriminate|].
  intros H. apply Hb in H. lia.
Qed.

Definition runs {E X A} (Q : A -> nat -> Prop) (x : outcome X A * nat * E) : Prop :=
  let '(o, q, _) := x in
  match o with Ok a => Q a q | Err _ => True | Panic => False | OutOfFuel => False end.

Lemma runs_returns {E X A} Q (x : outcome X A * nat * E) : runs Q x -> returns (fst (fst x)).
Proof. destruct x as [[[a|y| |] q] e]; cbn; intros H; try destruct H; unfold returns; eauto. Qed.

Lemma post_runs {E X A} (b : buffer E) (XP : X -> Prop) (Q : A -> nat -> Prop) p x :
  post b XP Q p x -> runs (fun a q => p <= q <= Nat.max p (total_len b) /\ Q a q) x.
Proof. destruct x as [[[a|y| |] q] e]; cbn; tauto. Qed.

Lemma runs_bind {E X A B} (Q : A -> nat -> Prop) (Q2 : B -> nat -> Prop) (m : M E X A) f p e :
  runs Q (m p e) -> (forall a q e', Q a q -> runs Q2 (f a q e')) -> runs Q2 (bind m f p e).
Proof. unfold bind, runs. destruct (m p e) as [[[a|x| |] q] e1]; auto. intros H H2. apply (H2 _ _ _ H). Qed.

Lemma runs_imp {E X A} (Q Q2 : A -> nat -> Prop) (x : outcome X A * nat * E) :
  runs Q x -> (forall a q, Q a q -> Q2 a q) -> runs Q2 x.
Proof. destruct x as [[[a|y| |] q] e]; cbn; auto. Qed.

Lemma runs_map_err {E X Y A} (Q : A -> nat -> Prop) (g : X -> Y) m p (e : E) :
  runs Q (m p e) -> runs Q (map_err g m p e).
Proof. unfold map_err, runs. destruct (m p e) as [[[a|x| |] q] e1]; auto. Qed.

Lemma runs_catch {E X Y A} (Q : A -> nat -> Prop) (m : M E X A) p (e : E) :
  runs Q (m p e) -> runs (fun s q => match s with inl a => Q a q | inr _ => True end) (@catch E X Y A m p e).
Proof. unfold catch, runs. destruct (m p e) as [[[a|x| |] q] e1]; auto. Qed.

Lemma runs_ret {E X A} (Q : A -> nat -> Prop) (a : A) p (e : E) : Q a p -> runs Q (@ret E X A a p e).
Proof. auto. Qed.
Lemma runs_fail {E X A} (Q : A -> nat -> Prop) (x : X) p (e : E) : runs Q (@fail E X A x p e).
Proof. exact I. Qed.
Lemma runs_get {E X} p (e : E) : runs (fun a q => a = p /\ q = p) (@get_pos E X p e).
Proof. cbn; auto. Qed.
Lemma runs_set {E X} n p (e : E) : runs (fun _ q => q = n) (@set_pos E X n p e).
Proof. cbn; auto. Qed.
Lemma runs_lift {E X A} (x : A + X) p (e : E) : runs (fun a q => q = p /\ x = inl a) (@lift E X A x p e).
Proof. destruct x; cbn; auto. Qed.
Lemma runs_local {E X A} (Q : A -> nat -> Prop) p0 (m : M E X A) p (e : E) :
  runs Q (m p0 e) -> runs (fun x q => q = p /\ Q (fst x) (snd x)) (at_local p0 m p e).
Proof. unfold at_local, runs. destruct (m p0 e) as [[[a|x| |] q] e1]; cbn; auto. Qed.

Section Src.
Context {E : Type}.
Variable b : buffer E.
Variable r : registry E.
Hypothesis Hb : good_buffer b.
Hypothesis Hr : good_registry r.

Lemma decode_type_runs id p pos e : cycle_check (checker_of p) = [] ->
  runs (fun _ q => pos <= q <= Nat.max pos (total_len b)) (decode_with_type b r (Symbol id) p pos e).
Proof.
  intros H. eapply runs_imp; [eapply post_runs, decode_with_type_post; auto; exact I|]. cbn. tauto.
Qed.

Lemma decode_at_runs id pos e :
  runs (fun _ q => pos <= q <= Nat.max pos (total_len b)) (decode_as_type_at_position b r id pos e).
Proof. apply decode_type_runs. reflexivity. Qed.

Lemma decode_all_body_runs id pos e : runs (fun _ q => True) (decode_all_body b r id pos e).
Proof.
  unfold decode_all_body. eapply runs_bind; [apply runs_set|]. intros _ q e1 ->.
  eapply runs_bind; [apply decode_at_runs|]. intros x q e2 _.
  eapply runs_bind; [apply runs_get|]. intros p q2 e3 [-> ->].
  destruct (Nat.eqb q (total_len b)); exact I.
Qed.

Lemma decode_all_returns id e : returns (fst (decode_all_as_type b r id e)).
Proof.
  unfold decode_all_as_type. pose proof (decode_all_body_runs id 0 e) as H.
  destruct (decode_all_body b r id 0 e) as [[o q] e1]. apply (runs_returns _ _ H).
Qed.
End Src.

Section Sign.
Context {E ME : Type}.
Variable b : buffer E.
Variable m : metadata E ME.
Hypothesis Hb : good_buffer b.
Hypothesis Hm : good_registry (m_types m).

Lemma mark_runs p e : runs (fun mk q => call_start mk <= extensions_start mk <= total_len b /\
   0 < call_start mk) (@mark E ME b p e).
Proof.
  unfold mark. eapply runs_bind.
  { apply runs_map_err, runs_local. eapply post_runs, (get_compact_post b (m_types m) Hb). }
  intros [n cs] q e1 (-> & Hq & Hn). cbn [fst snd] in *.
  eapply runs_bind.
  { apply runs_catch. eapply post_runs, (read_slice_post b (m_types m) Hb). }
  intros [l|x] q e2 H; [|exact I]. apply runs_ret. cbn [call_start extensions_start].
  destruct H as (_ & _ & H1 & H2). lia.
Qed.

Lemma call_unmarked_runs (b' : buffer E) pos e : good_buffer b' ->
  runs (fun _ _ => True) (decode_as_call_unmarked b' m pos e).
Proof.
  intros Hb'. unfold decode_as_call_unmarked. eapply runs_bind; [apply runs_map_err, runs_lift|].
  intros id q e1 [-> _]. eapply runs_bind; [apply runs_map_err, decode_type_runs; auto|].
  intros x q e2 _. destruct (x_data x); exact I.
Qed.

Lemma call_runs mk pos e : extensions_start mk <= total_len b ->
  runs (fun _ q => True) (decode_as_call b mk m pos e).
Proof.
  intros H. unfold decode_as_call, data_no_extensions. destruct (limit_length b (extensions_start mk)) as [b'|] eqn:Hl.
  - destruct (good_limit _ _ _ Hb Hl) as (Hb' & _ & _).
    eapply runs_bind; [apply runs_local, call_unmarked_runs; exact Hb'|].
    intros [c p'] q e1 _. destruct (Nat.eqb p' (extensions_start mk)); exact I.
  - unfold limit_length in Hl. destruct (Nat.ltb_spec (total_len b) (extensions_start mk)); [lia|discriminate].
Qed.

Lemma extensions_loop_runs l : forall pos e, runs (fun _ _ => True) (extensions_loop b (m_types m) l pos e).
Proof.
  induction l as [|[i id] l IH]; intros pos e; cbn [extensions_loop]; [exact I|].
  eapply runs_bind; [apply decode_type_runs; auto|]. intros x q e1 _.
  eapply runs_bind; [apply IH|]. intros; exact I.
Qed.

Lemma extensions_unmarked_runs g pos e :
  runs (fun _ _ => True) (decode_extensions_unmarked b m g pos e).
Proof.
  unfold decode_extensions_unmarked. eapply runs_bind; [apply runs_map_err, runs_lift|].
  intros l q e1 _. eapply runs_bind; [apply runs_map_err, extensions_loop_runs|].
  intros x q2 e2 _. eapply runs_bind; [apply runs_get|]. intros p q3 e3 _.
  destruct (negb (Nat.eqb p (total_len b))); [exact I|].
  eapply runs_bind; [apply runs_map_err, runs_lift|]. intros nv q4 e4 _.
  eapply runs_bind; [apply runs_lift|]. intros; exact I.
Qed.

Lemma extensions_runs mk g pos e : runs (fun _ _ => True) (decode_extensions b mk m g pos e).
Proof.
  unfold decode_extensions. eapply runs_bind; [apply runs_local, extensions_unmarked_runs|].
  intros; exact I.
Qed.

Lemma transaction_runs g pos e : runs (fun _ _ => True) (parse_transaction b m g pos e).
Proof.
  unfold parse_transaction. eapply runs_bind; [apply mark_runs|]. intros mk q e1 Hmk.
  eapply runs_bind; [apply extensions_runs|]. intros x q2 e2 _.
  eapply runs_bind; [apply runs_catch, call_runs; apply Hmk|]. intros; exact I.
Qed.

Lemma transaction_unmarked_runs g pos e :
  runs (fun _ _ => True) (parse_transaction_unmarked b m g pos e).
Proof.
  unfold parse_transaction_unmarked. eapply runs_bind; [apply runs_local with (Q := fun _ _ => True)|intros; exact I].
  eapply runs_bind; [apply call_unmarked_runs; exact Hb|]. intros c q e1 _.
  eapply runs_bind; [apply extensions_unmarked_runs|]. intros; exact I.
Qed.

Lemma unchecked_runs pos e : runs (fun _ _ => True) (decode_as_unchecked_extrinsic b m pos e).
Proof.
  unfold decode_as_unchecked_extrinsic. eapply runs_bind; [apply runs_local with (Q := fun _ _ => True)|intros; exact I].
  unfold decode_unchecked_body. eapply runs_bind; [apply runs_map_err, runs_lift|]. intros ps q e1 _.
  eapply runs_bind.
  { apply runs_map_err. eapply post_runs, (get_compact_post b (m_types m) Hb). }
  intros n q2 e2 _. eapply runs_bind; [apply runs_get|]. intros s q3 e3 _. cbv zeta.
  destruct (N.of_nat (total_len b) <? N.of_nat s + n)%N; [exact I|].
  destruct (N.of_nat s + n <? N.of_nat (total_len b))%N; [exact I|].
  eapply runs_bind.
  { apply runs_map_err. eapply post_runs, (read_byte_post b (m_types m) Hb). }
  intros v q4 e4 _. eapply runs_bind; [apply runs_set|]. intros _ q5 e5 _.
  eapply runs_bind; [apply runs_map_err, runs_lift|]. intros ver q6 e6 _.
  destruct (negb _); [exact I|]. destruct (N.land v VERSION_MASK_NEG =? 0)%N.
  - eapply runs_bind; [apply runs_map_err, decode_at_runs; auto|]. intros c q7 e7 _.
    destruct (x_data c); exact I.
  - eapply runs_bind; [apply runs_map_err, decode_at_runs; auto|]. intros a q7 e7 _.
    eapply runs_bind; [apply runs_map_err, decode_at_runs; auto|]. intros a2 q8 e8 _.
    eapply runs_bind; [apply runs_map_err, decode_at_runs; auto|]. intros a3 q9 e9 _.
    eapply runs_bind; [apply runs_map_err, decode_at_runs; auto|]. intros c q10 e10 _.
    destruct (x_data c); exact I.
Qed.
End Sign.

Section Storage.
Context {E : Type}.
Variable blake2_128 twox_64 : bytes -> bytes.
Variable b : buffer E.
Variable r : registry E.
Hypothesis Hb : good_buffer b.
Hypothesis Hre : forall id p e x q e' e1, (p <= total_len b)%nat ->
  decode_with_type b r (Symbol id) propagated_new p e = (Ok x, q, e') ->
  exists l e2, rd b p (N.of_nat (q - p)) e1 = (inl l, e2).
Hypothesis Hr : good_registry r.

Lemma cut_hash_runs len k id pos e : runs (fun _ _ => True) (cut_hash len k id b pos e).
Proof.
  unfold cut_hash. eapply runs_bind; [apply runs_get|]. intros a q e1 [-> ->].
  eapply runs_bind; [apply runs_map_err; eapply post_runs, (read_slice_post b r Hb)|].
  intros l q e2 (_ & -> & H1 & _). rewrite H1, N.eqb_refl. exact I.
Qed.

Lemma check_hash_runs len h id pos e : runs (fun _ _ => True) (check_hash len h id b r pos e).
Proof.
  unfold check_hash. eapply runs_bind; [apply runs_get|]. intros a q e1 [-> ->].
  eapply runs_bind; [apply runs_map_err; eapply post_runs, (read_slice_post b r Hb)|].
  intros l q e2 (_ & -> & H1 & H2). rewrite H1, N.eqb_refl.
  eapply runs_bind; [apply runs_set|]. intros _ q e3 ->.
  assert (Hs : (pos + N.to_nat len <= total_len b)%nat) by lia. generalize dependent (pos + N.to_nat len). intros s Hs.
  pose proof (decode_type_runs b r Hb Hr id propagated_new s e3 eq_refl) as Hd.
  unfold bind at 1, map_err. destruct (decode_with_type b r (Symbol id) propagated_new s e3) as [[o q] e4] eqn:Hx.
  destruct o as [x|x| |]; try exact Hd; try exact I.
  destruct (Hre _ _ _ _ _ _ e4 Hs Hx) as (l2 & e6 & Hrd).
  unfold bind, get_pos, catch, read_slice. rewrite Hrd. destruct (bytes_eqb l (h l2)); exact I.
Qed.

Lemma key_part_runs h id pos e :
  runs (fun _ _ => True) (key_part_decode blake2_128 twox_64 h id b r pos e).
Proof.
  destruct h; cbn [key_part_decode]; try apply cut_hash_runs; try apply check_hash_runs.
  eapply runs_bind; [apply runs_map_err, decode_type_runs; auto|]. intros; exact I.
Qed.

Lemma key_parts_runs hs : forall ids pos e,
  runs (fun _ _ => True) (key_parts blake2_128 twox_64 hs ids b r pos e).
Proof.
  induction hs as [|h hs IH]; intros [|id ids] pos e; cbn [key_parts]; try exact I.
  eapply runs_bind; [apply key_part_runs|]. intros x q e1 _.
  eapply runs_bind; [apply IH|]. intros; exact I.
Qed.

Lemma process_key_runs hs id p0 pos e :
  runs (fun _ _ => True) (process_key_mapped blake2_128 twox_64 hs id b p0 r pos e).
Proof.
  unfold process_key_mapped. eapply runs_bind; [apply runs_local with (Q := fun _ _ => True)|intros; exact I].
  unfold process_key_body. eapply runs_bind with (Q := fun _ _ => True).
  - assert (Hmany : runs (fun _ _ => True)
      ((do t <- map_err (fun x => ParsingKey (PRegistry x)) (resolve_ty r id);
        match t_def t with
        | TTuple elems =>
            if Nat.eqb (List.length elems) (List.length hs) then
              do content <- key_parts blake2_128 twox_64 hs elems b r;
              ret (KTuple content (info_from_ty t))
            else fail MultipleHashesNumberMismatch
        | _ => fail MultipleHashesNotATuple
        end) p0 e)).
    { eapply runs_bind; [apply runs_map_err; eapply post_runs, (resolve_post b r)|].
      intros t q e1 _. destruct (t_def t); try exact I.
      destruct (Nat.eqb (List.length elems) (List.length hs)); [|exact I].
      eapply runs_bind; [apply key_parts_runs|]. intros; exact I. }
    destruct hs as [|h [|h2 hs]]; try exact Hmany.
    eapply runs_bind; [apply key_part_runs|]. intros; exact I.
  - intros k q e1 _. eapply runs_bind; [apply runs_get|]. intros p q2 e2 _.
    destruct (Nat.eqb p (total_len b)); exact I.
Qed.

Lemma storage_runs_gen (v : buffer E) entry pos e : good_buffer v ->
  runs (fun _ _ => True) (decode_as_storage_entry blake2_128 twox_64 b v entry r pos e).
Proof.
  intros Hv. unfold decode_as_storage_entry. cbv zeta.
  assert (Hdec : forall k docs id pos e, runs (fun _ _ => True)
     ((do value <- map_err ParsingValue (decode_all_m v r id); ret (Storage k value docs)) pos e)).
  { intros k docs id pos' e'. eapply runs_bind; [apply runs_map_err with (Q := fun _ _ => True)|intros; exact I].
    unfold decode_all_m. eapply runs_bind; [apply runs_local, decode_all_body_runs; auto|].
    intros x q e1 _. apply runs_ret. exact I. }
  destruct (Nat.ltb (total_len b) PREFIX_LEN); [exact I|].
  destruct (en_ty entry).
  - destruct (negb (Nat.eqb PREFIX_LEN (total_len b))); [exact I|]. apply Hdec.
  - eapply runs_bind; [apply process_key_runs|]. intros k q e1 _. apply Hdec.
Qed.
End Storage.

Lemma storage_runs {E} blake2_128 twox_64 (b : buffer E) (r : registry E) : good_buffer b -> all_readable b -> good_registry r ->
  forall (v : buffer E) entry pos e, good_buffer v ->
  runs (fun _ _ => True) (decode_as_storage_entry blake2_128 twox_64 b v entry r pos e).
Proof.
  intros Hb Hall Hr v entry pos e Hv. apply storage_runs_gen; auto. intros id p e0 x q e' e1 Hp H.
  pose proof (decode_type_runs b r Hb Hr id propagated_new p e0 eq_refl) as Hd. rewrite H in Hd. cbn in Hd.
  apply Hall; lia.
Qed.
