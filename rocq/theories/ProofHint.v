(** C12: the same computation whatever the hint, for any source. *)
From Coq Require Import Lia.
From Verif Require Import Base Compact Types Indicators Decode Spec SpecLabels ProofLabels ProofSim.
Local Open Scope list_scope.

Definition same_but_hint (c1 c2 : checker) : Prop :=
  compact_at c1 = compact_at c2 /\ cycle_check c1 = cycle_check c2.
Definition same_p (p1 p2 : propagated) : Prop :=
  same_but_hint (checker_of p1) (checker_of p2) /\ info_of p1 = info_of p2.
Definition ux (x y : ext pdata) : Prop :=
  unlabel (x_data x) = unlabel (x_data y) /\ x_info x = x_info y.
Definition ud (x y : pdata) : Prop := unlabel x = unlabel y.

Section Hint.
Context {E : Type}.
Variable b : buffer E.
Variable r : registry E.

Lemma reject_same (c1 c2 : checker) : same_but_hint c1 c2 -> reject_compact c1 = reject_compact c2.
Proof. unfold reject_compact. intros [-> _]. reflexivity. Qed.

Lemma reject_m_sim (c1 c2 : checker) : same_but_hint c1 c2 ->
  sim eq (@reject_compact_m E c1) (@reject_compact_m E c2).
Proof. intros H. unfold reject_compact_m. rewrite (reject_same _ _ H). apply sim_eq. Qed.

Lemma check_id_same (c1 c2 : checker) id : same_but_hint c1 c2 ->
  match check_id c1 id, check_id c2 id with
  | inl a, inl b => same_but_hint a b | inr a, inr b => a = b | _, _ => False end.
Proof.
  intros [H1 H2]. unfold check_id. rewrite H2. destruct (existsb _ _); [reflexivity|].
  split; cbn; congruence.
Qed.

Lemma for_field_same (c1 c2 : checker) f : same_but_hint c1 c2 ->
  match for_field c1 f, for_field c2 f with
  | inl a, inl b => same_p a b | inr a, inr b => a = b | _, _ => False end.
Proof.
  intros H. unfold for_field, update_for_field.
  assert (Hc : same_but_hint (match c_hint c1 with HNone => with_hint c1 (hint_from_field f) | _ => c1 end)
                             (match c_hint c2 with HNone => with_hint c2 (hint_from_field f) | _ => c2 end)).
  { destruct H as [H1 H2]. destruct (c_hint c1), (c_hint c2); split; cbn; assumption. }
  apply (check_id_same _ _ (f_ty f)) in Hc.
  destruct (check_id _ (f_ty f)), (check_id _ (f_ty f)); auto. split; auto.
Qed.

Lemma for_ty_same (c1 c2 : checker) t id : same_but_hint c1 c2 ->
  match for_ty c1 t id, for_ty c2 t id with
  | inl a, inl b => same_p a b | inr a, inr b => a = b | _, _ => False end.
Proof.
  intros H. unfold for_ty, update_for_ty. apply (check_id_same _ _ id) in H.
  destruct (check_id c1 id) as [a1|], (check_id c2 id) as [a2|]; try contradiction; auto.
  split; [|reflexivity]. destruct H as [H1 H2]. unfold update_from_path.
  destruct (c_hint a1), (c_hint a2); split; cbn; assumption.
Qed.

Lemma forget_same c1 c2 : same_but_hint c1 c2 -> same_but_hint (forget_hint c1) (forget_hint c2).
Proof. intros [H1 H2]. split; cbn; assumption. Qed.

Lemma prim_same x c1 c2 : same_but_hint c1 c2 ->
  sim ud (decode_primitive b x c1) (decode_primitive b x c2).
Proof.
  intros H. pose proof H as [Hc _]. unfold ud. destruct x; cbn [decode_primitive];
    unfold block_compact; rewrite ?Hc; try (apply sim_same; reflexivity).
  - eapply sim_bind; [apply reject_m_sim, H|]. intros _ _ _. unfold decode_str.
    eapply sim_bind; [apply sim_eq|]. intros p ? <-. eapply sim_bind; [apply sim_eq|]. intros [n s] ? <-.
    eapply sim_bind; [apply sim_eq|]. intros l ? <-. destruct (utf8_valid l); [|apply sim_fail].
    eapply sim_bind; [apply sim_eq|]. intros _ _ _. apply sim_ret. reflexivity.
  - unfold parse_uint. rewrite Hc. eapply sim_bind; [apply sim_eq|]. intros n ? <-.
    apply sim_ret. reflexivity.
Qed.

Section Body.
Variable dec : ty_input -> propagated -> M E parser_err (ext pdata).
Hypothesis Hdec : forall i p1 p2, same_p p1 p2 -> sim ux (dec i p1) (dec i p2).

Lemma lift_p_sim {A} (R : A -> A -> Prop) (x y : A + int_err) :
  match x, y with inl a, inl b => R a b | inr a, inr b => a = b | _, _ => False end ->
  sim R (@lift_p E A x) (@lift_p E A y).
Proof. intros H. unfold lift_p. apply sim_map_err, sim_lift, H. Qed.

Definition uf (l1 l2 : list (fdata pdata)) : Prop := map un_f l1 = map un_f l2.

Lemma fields_loop_sim fs : forall c1 c2, same_but_hint c1 c2 ->
  sim uf (fields_loop dec fs c1) (fields_loop dec fs c2).
Proof.
  induction fs as [|f fs IH]; intros c1 c2 H; cbn [fields_loop]; [apply sim_ret; reflexivity|].
  eapply sim_bind; [apply lift_p_sim, for_field_same, H|]. intros p1 p2 Hp.
  eapply sim_bind; [apply Hdec, Hp|]. intros x1 x2 [Hx1 Hx2].
  eapply sim_bind; [apply IH, H|]. intros l1 l2 Hl. apply sim_ret. unfold uf in *. cbn [map un_f].
  rewrite Hl. destruct x1, x2; cbn in *. congruence.
Qed.

Lemma decode_fields_sim fs c1 c2 : same_but_hint c1 c2 ->
  sim uf (decode_fields dec fs c1) (decode_fields dec fs c2).
Proof.
  intros H. unfold decode_fields. destruct fs as [|f1 [|f2 fs]]; try apply fields_loop_sim, H.
  eapply sim_bind; [apply reject_m_sim, H|]. intros _ _ _. apply fields_loop_sim, forget_same, H.
Qed.

Lemma tuple_loop_sim ids : forall c1 c2, same_but_hint c1 c2 ->
  sim (fun l1 l2 => map un_x l1 = map un_x l2) (tuple_loop r dec ids c1) (tuple_loop r dec ids c2).
Proof.
  induction ids as [|i ids IH]; intros c1 c2 H; cbn [tuple_loop]; [apply sim_ret; reflexivity|].
  eapply sim_bind; [apply sim_eq|]. intros t ? <-.
  eapply sim_bind; [apply lift_p_sim, for_ty_same, H|]. intros p1 p2 Hp.
  eapply sim_bind; [apply Hdec, Hp|]. intros x1 x2 [Hx1 Hx2].
  eapply sim_bind; [apply IH, H|]. intros l1 l2 Hl. apply sim_ret. cbn [map].
  rewrite Hl. destruct x1, x2; cbn in *. congruence.
Qed.

Lemma elements_same el n p1 p2 : same_p p1 p2 ->
  sim eq (decode_elements_set r dec el n p1) (decode_elements_set r dec el n p2).
Proof.
  intros [H Hi]. unfold decode_elements_set. eapply sim_bind; [apply reject_m_sim, H|]. intros _ _ _.
  eapply sim_bind with (R := eq).
  { apply sim_map_err. unfold husk_type. apply (check_id_same _ _ el) in H.
    destruct (check_id (checker_of p1) el) as [a1|], (check_id (checker_of p2) el) as [a2|]; try contradiction;
      unfold lift_int; cbn [lift].
    - destruct H as [_ H2]. eapply sim_bind with (R := fun x y => x = a1 /\ y = a2).
      + apply sim_map_err, sim_ret. auto.
      + intros ? ? [-> ->]. rewrite H2. apply sim_eq.
    - subst. apply sim_bind with (R := fun _ _ => False); [apply sim_map_err, sim_fail|contradiction]. }
  intros hu ? <-. rewrite Hi. apply sim_eq.
Qed.

Lemma decode_plain_sim t id p1 p2 : same_p p1 p2 ->
  sim ux (decode_plain b r dec t id p1) (decode_plain b r dec t id p2).
Proof.
  intros H. pose proof H as [Hc Hi]. unfold decode_plain.
  destruct (t_def t) as [fs|vs|el|len el|els|x|inner|s o].
  - eapply sim_bind; [apply decode_fields_sim, Hc|]. intros l1 l2 Hl. apply sim_ret.
    split; [|exact Hi]. cbn [x_data unlabel]. f_equal. exact Hl.
  - eapply sim_bind; [apply reject_m_sim, Hc|]. intros _ _ _.
    destruct vs; [apply sim_ret; split; [reflexivity|exact Hi]|].
    eapply sim_bind; [apply sim_eq|]. intros v' ? <-. apply sim_ret. split; [reflexivity|exact Hi].
  - eapply sim_bind; [apply sim_eq|]. intros n ? <-.
    eapply sim_imp; [apply elements_same|intros a ? <-; split; reflexivity].
    split; [|exact Hi]. destruct Hc. split; cbn; auto.
  - eapply sim_imp; [apply elements_same, H|intros a ? <-; split; reflexivity].
  - destruct els as [|i1 [|i2 ids]];
      try (eapply sim_bind; [apply tuple_loop_sim, Hc|]; intros l1 l2 Hl; apply sim_ret;
           (split; [|exact Hi]); cbn [x_data unlabel]; f_equal; exact Hl).
    eapply sim_bind; [apply reject_m_sim, Hc|]. intros _ _ _.
    eapply sim_bind; [apply tuple_loop_sim, forget_same, Hc|]; intros l1 l2 Hl; apply sim_ret.
    split; [|exact Hi]. cbn [x_data unlabel]; f_equal; exact Hl.
  - eapply sim_bind; [apply prim_same, Hc|]. intros d1 d2 Hd. apply sim_ret. split; [exact Hd|exact Hi].
  - eapply sim_bind; [apply reject_m_sim, Hc|]. intros _ _ _.
    eapply sim_bind; [apply lift_p_sim, check_id_same; destruct Hc; split; cbn; auto|].
    intros a1 a2 Ha. apply Hdec. split; [exact Ha|exact Hi].
  - eapply sim_bind; [apply reject_m_sim, Hc|]. intros _ _ _.
    eapply sim_bind; [apply sim_eq|]. intros d ? <-. apply sim_ret. split; [reflexivity|exact Hi].
Qed.

Lemma decode_body_sim i p1 p2 : same_p p1 p2 ->
  sim ux (decode_body b r dec i p1) (decode_body b r dec i p2).
Proof.
  intros H. unfold decode_body. eapply sim_bind; [apply sim_eq|]. intros [t id] ? <-.
  assert (Hp : same_p (add_info p1 (info_from_ty t)) (add_info p2 (info_from_ty t))).
  { destruct H as [Hc Hi]. unfold add_info. destruct (info_is_empty _); [split; auto|].
    split; cbn; [exact Hc|congruence]. }
  eapply sim_bind; [apply sim_eq|]. intros k ? <-. clear H. revert Hp.
  generalize (add_info p1 (info_from_ty t)) (add_info p2 (info_from_ty t)). clear p1 p2. intros p1 p2 H.
  pose proof H as [Hc Hi]. destruct k; cbn [decode_checked].
  - apply decode_plain_sim, H.
  - unfold parse_fixed, block_compact. destruct Hc as [-> _]. eapply sim_bind; [apply sim_eq|].
    intros d ? <-. apply sim_ret. split; [reflexivity|exact Hi].
  - eapply sim_bind; [apply reject_m_sim, Hc|]. intros _ _ _. eapply sim_bind; [apply sim_eq|].
    intros d ? <-. apply sim_ret. split; [reflexivity|exact Hi].
  - eapply sim_bind; [apply reject_m_sim, Hc|]. intros _ _ _. eapply sim_bind with (R := ud).
    + unfold special_case_h256. eapply sim_bind; [apply sim_eq|]. intros x ? <-. apply sim_ret. reflexivity.
    + intros d1 d2 Hd. apply sim_ret. split; [exact Hd|exact Hi].
  - eapply sim_bind; [apply reject_m_sim, Hc|]. intros _ _ _. eapply sim_bind; [apply sim_eq|].
    intros d ? <-. apply sim_ret. split; [reflexivity|exact Hi].
  - unfold parse_per. destruct Hc as [-> _]. eapply sim_bind; [apply sim_eq|].
    intros d ? <-. apply sim_ret. split; [reflexivity|exact Hi].
Qed.
End Body.

Lemma decode_sim fuel : forall i p1 p2, same_p p1 p2 -> sim ux (decode b r fuel i p1) (decode b r fuel i p2).
Proof.
  induction fuel as [|fuel IH]; intros i p1 p2 H; [intros p e; repeat split|].
  cbn [decode]. apply decode_body_sim; auto.
Qed.

Theorem hint_same h1 h2 id pos e :
  alike ux (decode_with_type b r (Symbol id) (Propagated (Checker None h1 []) []) pos e)
           (decode_with_type b r (Symbol id) (Propagated (Checker None h2 []) []) pos e).
Proof. apply decode_sim. repeat split. Qed.
End Hint.
