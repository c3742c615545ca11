(** C73: a run that has already met more types does the same, or reports a cycle. *)
From Coq Require Import Lia.
From Verif Require Import Base Compact Types Indicators Decode Spec SpecLabels ProofSim ProofLabels ProofHint.
Local Open Scope list_scope.

Definition lag {E X A B} (C : X -> Prop) (R : A -> B -> Prop) (m1 : M E X A) (m2 : M E X B) : Prop :=
  forall p e, (exists x, fst (fst (m1 p e)) = Err x /\ C x) \/ alike R (m1 p e) (m2 p e).

Lemma lag_sim {E X A B} (C : X -> Prop) (R : A -> B -> Prop) (m1 : M E X A) (m2 : M E X B) : sim R m1 m2 -> lag C R m1 m2.
Proof. intros H p e. right. apply H. Qed.
Lemma lag_eq {E X A} (C : X -> Prop) (m : M E X A) : lag C eq m m.
Proof. apply lag_sim, sim_eq. Qed.
Lemma lag_ret {E X A B} (C : X -> Prop) (R : A -> B -> Prop) a b : R a b -> lag (E := E) C R (ret a) (ret b).
Proof. intros H. apply lag_sim, sim_ret, H. Qed.
Lemma lag_fail {E X A B} (C : X -> Prop) (R : A -> B -> Prop) x : lag (E := E) C R (fail x) (fail x).
Proof. apply lag_sim, sim_fail. Qed.
Lemma lag_bind {E X A B A' B'} (C : X -> Prop) (R : A -> B -> Prop) (Q : A' -> B' -> Prop)
    (m1 : M E X A) (m2 : M E X B) f1 f2 :
  lag C R m1 m2 -> (forall a b, R a b -> lag C Q (f1 a) (f2 b)) -> lag C Q (bind m1 f1) (bind m2 f2).
Proof.
  intros Hm Hf p e. unfold bind. destruct (Hm p e) as [(x & H & Hc)|H].
  - left. destruct (m1 p e) as [[o q] e']. cbn in H. subst o. exists x. auto.
  - unfold alike in H. destruct (m1 p e) as [[o q] e'], (m2 p e) as [[o' q'] e'']. cbn [fst snd] in H.
    destruct H as (-> & -> & H). destruct o, o'; cbn in H; try contradiction; [apply Hf, H|right..]; repeat split; auto.
Qed.
Lemma lag_map_err {E X Y A B} (C : X -> Prop) (C' : Y -> Prop) (R : A -> B -> Prop) g (m1 : M E X A) (m2 : M E X B) :
  lag C R m1 m2 -> (forall x, C x -> C' (g x)) -> lag C' R (map_err g m1) (map_err g m2).
Proof.
  intros Hm Hg p e. unfold map_err. destruct (Hm p e) as [(x & H & Hc)|H].
  - left. destruct (m1 p e) as [[o q] e']. cbn in H. subst o. exists (g x). auto.
  - right. unfold alike in *. destruct (m1 p e) as [[o q] e'], (m2 p e) as [[o' q'] e'']. cbn [fst snd] in H.
    destruct H as (-> & -> & H). destruct o, o'; cbn in H; try contradiction; repeat split; auto. cbn. congruence.
Qed.
Lemma lag_imp {E X A B} (C : X -> Prop) (R Q : A -> B -> Prop) (m1 : M E X A) (m2 : M E X B) :
  lag C R m1 m2 -> (forall a b, R a b -> Q a b) -> lag C Q m1 m2.
Proof.
  intros Hm H p e. destruct (Hm p e) as [Hc|Ha]; [left; exact Hc|right]. unfold alike in *. destruct Ha as (-> & -> & Ho).
  repeat split. destruct (fst (fst (m1 p e))), (fst (fst (m2 p e))); cbn in *; auto.
Qed.

Definition cycle_i (x : int_err) : Prop := exists id, x = CyclicMetadata id.
Definition cycle_r (x : reg_err) : Prop := exists id, x = RInternal (CyclicMetadata id).
Definition cycle_p (x : parser_err) : Prop := exists id, x = PRegistry (RInternal (CyclicMetadata id)).

(** The first has met all the types that the second has met. *)
Definition ahead (c1 c2 : checker) : Prop :=
  compact_at c1 = compact_at c2 /\ c_hint c1 = c_hint c2 /\ incl (cycle_check c2) (cycle_check c1).
Definition ahead_p (p1 p2 : propagated) : Prop := ahead (checker_of p1) (checker_of p2) /\ info_of p1 = info_of p2.

Definition lagged {A B} (R : A -> B -> Prop) (x : A + int_err) (y : B + int_err) : Prop :=
  match x with
  | inr a => cycle_i a \/ y = inr a
  | inl a => match y with inl b => R a b | inr _ => False end
  end.

Lemma check_id_ahead c1 c2 id : ahead c1 c2 -> lagged ahead (check_id c1 id) (check_id c2 id).
Proof.
  intros (H1 & H2 & H3). unfold check_id. destruct (existsb (N.eqb id) (cycle_check c1)) eqn:E1; [left; eexists; reflexivity|].
  destruct (existsb (N.eqb id) (cycle_check c2)) eqn:E2.
  - exfalso. apply existsb_exists in E2. destruct E2 as (j & Hj & Ej). apply N.eqb_eq in Ej. subst j.
    assert (existsb (N.eqb id) (cycle_check c1) = true) by (apply existsb_exists; exists id; split; [apply H3, Hj|apply N.eqb_refl]).
    congruence.
  - split; [exact H1|]. split; [exact H2|]. cbn [cycle_check]. intros x Hx. apply in_app_iff in Hx. apply in_app_iff.
    destruct Hx; [left; apply H3; assumption|right; assumption].
Qed.

Lemma for_field_ahead c1 c2 f : ahead c1 c2 -> lagged ahead_p (for_field c1 f) (for_field c2 f).
Proof.
  intros H. unfold for_field, update_for_field.
  assert (Hc : ahead (match c_hint c1 with HNone => with_hint c1 (hint_from_field f) | _ => c1 end)
                     (match c_hint c2 with HNone => with_hint c2 (hint_from_field f) | _ => c2 end)).
  { destruct H as (H1 & H2 & H3). rewrite <- H2. destruct (c_hint c1) eqn:Eh; repeat split; cbn; auto; congruence. }
  apply (check_id_ahead _ _ (f_ty f)) in Hc. unfold lagged in *.
  destruct (check_id _ (f_ty f)) as [a|a], (check_id _ (f_ty f)) as [a'|a']; auto.
  - split; auto.
  - destruct Hc as [Hc|Hc]; [left; exact Hc|discriminate].
  - destruct Hc as [Hc|Hc]; [left; exact Hc|right; congruence].
Qed.

Lemma for_ty_ahead c1 c2 t id : ahead c1 c2 -> lagged ahead_p (for_ty c1 t id) (for_ty c2 t id).
Proof.
  intros H. unfold for_ty, update_for_ty. apply (check_id_ahead _ _ id) in H. unfold lagged in *.
  destruct (check_id c1 id) as [a|a], (check_id c2 id) as [a'|a']; auto.
  - split; [|reflexivity]. destruct H as (H1 & H2 & H3). cbn [with_checker checker_of]. unfold update_from_path. rewrite <- H2.
    destruct (c_hint a) eqn:Eh; repeat split; cbn; auto; congruence.
  - destruct H as [H|H]; [left; exact H|discriminate].
  - destruct H as [H|H]; [left; exact H|right; congruence].
Qed.

Section Lag.
Context {E : Type}.
Variable b : buffer E.
Variable r : registry E.

Lemma reject_m_ahead (c1 c2 : checker) : ahead c1 c2 -> lag cycle_p eq (@reject_compact_m E c1) (@reject_compact_m E c2).
Proof. intros (H & _). unfold reject_compact_m, reject_compact. rewrite H. apply lag_eq. Qed.

Lemma lift_lag {X A B} (R : A -> B -> Prop) (C : X -> Prop) (g : int_err -> X) x y :
  lagged R x y -> (forall a, cycle_i a -> C (g a)) -> lag (E := E) C R (map_err g (lift x)) (map_err g (lift y)).
Proof.
  intros H Hg. unfold lagged in H. destruct x as [a|a], y as [a'|a']; try contradiction.
  - apply lag_ret, H.
  - destruct H as [H|H]; [|discriminate]. intros p e. left. exists (g a). split; [reflexivity|auto].
  - destruct H as [H|H]; [|injection H as ->; apply lag_fail]. intros p e. left. exists (g a). split; [reflexivity|auto].
Qed.
Lemma lift_p_lag {A B} (R : A -> B -> Prop) x y : lagged R x y -> lag cycle_p R (@lift_p E A x) (@lift_p E B y).
Proof. intros H. apply lift_lag; [exact H|]. intros a [id ->]. exists id. reflexivity. Qed.
Lemma lift_int_lag {A B} (R : A -> B -> Prop) x y : lagged R x y -> lag cycle_r R (@lift_int E A x) (@lift_int E B y).
Proof. intros H. apply lift_lag; [exact H|]. intros a [id ->]. exists id. reflexivity. Qed.

Definition hused (h1 h2 : husked) : Prop :=
  hu_info h1 = hu_info h2 /\ hu_ty h1 = hu_ty h2 /\ hu_id h1 = hu_id h2 /\ ahead (hu_checker h1) (hu_checker h2).

Lemma husk_loop_ahead fuel : forall t id c1 c2 acc, ahead c1 c2 ->
  lag cycle_r hused (husk_loop r fuel t id c1 acc) (husk_loop r fuel t id c2 acc).
Proof.
  induction fuel as [|fuel IH]; intros t id c1 c2 acc H; cbn [husk_loop].
  { intros p e. right. repeat split. }
  cbv zeta. assert (Hret : forall acc', lag cycle_r hused (@ret E reg_err husked (Husked acc' c1 t id)) (ret (Husked acc' c2 t id))).
  { intros acc'. apply lag_ret. repeat split; apply H. }
  destruct (hinted_from_type t); try apply Hret.
  destruct (t_def t) as [[|f [|? ?]]| | | | | |inner| ]; try apply Hret.
  - eapply lag_bind; [apply lift_int_lag, check_id_ahead, H|]. intros a a' Ha.
    eapply lag_bind; [apply lag_eq|]. intros t1 ? <-. apply IH.
    destruct Ha as (H1 & H2 & H3). rewrite <- H2. destruct (c_hint a) eqn:Eh; repeat split; cbn; auto; congruence.
  - eapply lag_bind with (R := eq).
    { unfold reject_compact. destruct H as (-> & _). apply lag_eq. }
    intros _ _ _. eapply lag_bind; [apply lift_int_lag, check_id_ahead|].
    { destruct H as (H1 & H2 & H3). repeat split; cbn; auto. }
    intros a a' Ha. eapply lag_bind; [apply lag_eq|]. intros t1 ? <-. apply IH, Ha.
Qed.

Lemma husk_ahead el c1 c2 : ahead c1 c2 -> lag cycle_r hused (husk_type r el c1) (husk_type r el c2).
Proof.
  intros H. unfold husk_type. eapply lag_bind; [apply lift_int_lag, check_id_ahead, H|]. intros a a' Ha. cbv zeta.
  eapply lag_bind; [apply lag_eq|]. intros t ? <-. apply husk_loop_ahead. destruct Ha as (_ & _ & Ha). repeat split. exact Ha.
Qed.

Lemma prim_ahead x c1 c2 : ahead c1 c2 -> lag cycle_p eq (decode_primitive b x c1) (decode_primitive b x c2).
Proof.
  intros (H1 & H2 & _). assert (He : decode_primitive b x c1 = decode_primitive b x c2); [|rewrite He; apply lag_eq].
  destruct c1 as [a h s], c2 as [a' h' s']. cbn in H1, H2. subst. destruct x; reflexivity.
Qed.

Section Body.
Variable dec : ty_input -> propagated -> M E parser_err (ext pdata).
Hypothesis Hdec : forall i p1 p2, ahead_p p1 p2 -> lag cycle_p eq (dec i p1) (dec i p2).

Lemma fields_loop_ahead fs : forall c1 c2, ahead c1 c2 -> lag cycle_p eq (fields_loop dec fs c1) (fields_loop dec fs c2).
Proof.
  induction fs as [|f fs IH]; intros c1 c2 H; cbn [fields_loop]; [apply lag_ret; reflexivity|].
  eapply lag_bind; [apply lift_p_lag, for_field_ahead, H|]. intros p1 p2 Hp.
  eapply lag_bind; [apply Hdec, Hp|]. intros x ? <-.
  eapply lag_bind; [apply IH, H|]. intros l ? <-. apply lag_ret. reflexivity.
Qed.

Lemma forget_ahead c1 c2 : ahead c1 c2 -> ahead (forget_hint c1) (forget_hint c2).
Proof. intros (H1 & H2 & H3). unfold forget_hint. rewrite H1, H2. repeat split. exact H3. Qed.

Lemma decode_fields_ahead fs c1 c2 : ahead c1 c2 -> lag cycle_p eq (decode_fields dec fs c1) (decode_fields dec fs c2).
Proof.
  intros H. unfold decode_fields. destruct fs as [|f1 [|f2 fs]]; try apply fields_loop_ahead, H.
  eapply lag_bind; [apply reject_m_ahead, H|]. intros _ _ _. apply fields_loop_ahead, forget_ahead, H.
Qed.

Lemma tuple_loop_ahead ids : forall c1 c2, ahead c1 c2 -> lag cycle_p eq (tuple_loop r dec ids c1) (tuple_loop r dec ids c2).
Proof.
  induction ids as [|i ids IH]; intros c1 c2 H; cbn [tuple_loop]; [apply lag_ret; reflexivity|].
  eapply lag_bind; [apply lag_eq|]. intros t ? <-.
  eapply lag_bind; [apply lift_p_lag, for_ty_ahead, H|]. intros p1 p2 Hp.
  eapply lag_bind; [apply Hdec, Hp|]. intros x ? <-.
  eapply lag_bind; [apply IH, H|]. intros l ? <-. apply lag_ret. reflexivity.
Qed.

Lemma elements_loop_ahead n h1 h2 : hused h1 h2 -> lag cycle_p eq (elements_loop dec n h1) (elements_loop dec n h2).
Proof.
  intros H. induction n as [|n IH]; cbn [elements_loop]; [apply lag_ret; reflexivity|].
  destruct H as (_ & -> & -> & H). eapply lag_bind; [apply Hdec; split; [exact H|reflexivity]|]. intros x ? <-.
  eapply lag_bind; [apply IH|]. intros l ? <-. apply lag_ret. reflexivity.
Qed.

Lemma elements_ahead el n p1 p2 : ahead_p p1 p2 ->
  lag cycle_p eq (decode_elements_set r dec el n p1) (decode_elements_set r dec el n p2).
Proof.
  intros [H Hi]. unfold decode_elements_set. eapply lag_bind; [apply reject_m_ahead, H|]. intros _ _ _.
  eapply lag_bind.
  { eapply lag_map_err; [apply husk_ahead, H|]. intros x [id ->]. exists id. reflexivity. }
  intros h1 h2 Hh. rewrite Hi. destruct (n =? 0)%N.
  - apply lag_ret. destruct Hh as (-> & _). reflexivity.
  - eapply lag_bind; [apply elements_loop_ahead, Hh|]. intros l ? <-. apply lag_ret. destruct Hh as (-> & _). reflexivity.
Qed.

Lemma decode_plain_ahead t id p1 p2 : ahead_p p1 p2 ->
  lag cycle_p eq (decode_plain b r dec t id p1) (decode_plain b r dec t id p2).
Proof.
  intros H. pose proof H as [Hc Hi]. unfold decode_plain. rewrite Hi.
  destruct (t_def t) as [fs|vs|el|len el|els|x|inner|s o].
  - eapply lag_bind; [apply decode_fields_ahead, Hc|]. intros l ? <-. apply lag_ret. reflexivity.
  - eapply lag_bind; [apply reject_m_ahead, Hc|]. intros _ _ _. destruct vs; apply lag_eq.
  - eapply lag_bind; [apply lag_eq|]. intros n ? <-. apply elements_ahead. split; [|reflexivity].
    destruct Hc as (H1 & H2 & _). unfold drop_cycle_check. rewrite H1, H2. repeat split. intros x [].
  - apply elements_ahead, H.
  - destruct els as [|i1 [|i2 ids]];
      try (eapply lag_bind; [apply tuple_loop_ahead, Hc|]; intros l ? <-; apply lag_ret; reflexivity).
    eapply lag_bind; [apply reject_m_ahead, Hc|]. intros _ _ _.
    eapply lag_bind; [apply tuple_loop_ahead, forget_ahead, Hc|]; intros l ? <-; apply lag_ret; reflexivity.
  - eapply lag_bind; [apply prim_ahead, Hc|]. intros d ? <-. apply lag_ret. reflexivity.
  - eapply lag_bind; [apply reject_m_ahead, Hc|]. intros _ _ _.
    eapply lag_bind; [apply lift_p_lag, check_id_ahead|].
    { destruct Hc as (H1 & H2 & H3). repeat split; cbn; auto. }
    intros a1 a2 Ha. apply Hdec. split; [exact Ha|reflexivity].
  - eapply lag_bind; [apply reject_m_ahead, Hc|]. intros _ _ _. apply lag_eq.
Qed.

Lemma decode_body_ahead i p1 p2 : ahead_p p1 p2 ->
  lag cycle_p eq (decode_body b r dec i p1) (decode_body b r dec i p2).
Proof.
  intros H. unfold decode_body. eapply lag_bind; [apply lag_eq|]. intros [t id] ? <-. cbv zeta.
  assert (Hp : ahead_p (add_info p1 (info_from_ty t)) (add_info p2 (info_from_ty t))).
  { destruct H as [Hc Hi]. unfold add_info. destruct (info_is_empty _); [split; auto|].
    split; cbn; [exact Hc|congruence]. }
  eapply lag_bind; [apply lag_eq|]. intros k ? <-. clear H. revert Hp.
  generalize (add_info p1 (info_from_ty t)) (add_info p2 (info_from_ty t)). clear p1 p2. intros p1 p2 H.
  pose proof H as [Hc Hi]. destruct k; cbn [decode_checked]; [apply decode_plain_ahead, H|..]; rewrite Hi.
  - unfold parse_fixed, block_compact. destruct Hc as (-> & _). apply lag_eq.
  - eapply lag_bind; [apply reject_m_ahead, Hc|]. intros _ _ _. apply lag_eq.
  - eapply lag_bind; [apply reject_m_ahead, Hc|]. intros _ _ _. destruct Hc as (_ & -> & _). apply lag_eq.
  - eapply lag_bind; [apply reject_m_ahead, Hc|]. intros _ _ _. apply lag_eq.
  - unfold parse_per. destruct Hc as (-> & _). apply lag_eq.
Qed.
End Body.

Lemma decode_ahead fuel : forall i p1 p2, ahead_p p1 p2 -> lag cycle_p eq (decode b r fuel i p1) (decode b r fuel i p2).
Proof.
  induction fuel as [|fuel IH]; intros i p1 p2 H; [intros p e; right; repeat split|].
  cbn [decode]. apply decode_body_ahead; auto.
Qed.

(** Decoding with any hint after any types have been met, and decoding on its own. *)
Lemma alone_lag i h s : lag cycle_p ux (decode_with_type b r i (Propagated (Checker None h s) []))
  (decode_with_type b r i propagated_new).
Proof.
  intros p e. destruct (decode_ahead (decode_fuel b r) i (Propagated (Checker None h s) []) (Propagated (Checker None h []) [])
    (conj (conj eq_refl (conj eq_refl (incl_nil_l s))) eq_refl) p e) as [H|H]; [left; exact H|right].
  pose proof (decode_sim b r (decode_fuel b r) i (Propagated (Checker None h []) []) propagated_new
    (conj (conj eq_refl eq_refl) eq_refl) p e) as H2. fold (decode_with_type b r i) in *.
  unfold decode_with_type in *. unfold alike in *. destruct H as (-> & -> & H), H2 as (-> & -> & H2). repeat split.
  destruct (fst (fst (decode b r (decode_fuel b r) i (Propagated (Checker None h s) []) p e))),
    (fst (fst (decode b r (decode_fuel b r) i (Propagated (Checker None h []) []) p e))),
    (fst (fst (decode b r (decode_fuel b r) i propagated_new p e))); cbn in *; try contradiction; try congruence; auto.
Qed.
End Lag.
