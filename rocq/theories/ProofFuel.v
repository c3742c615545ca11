(** A larger recursion bound changes nothing once the bound is not reached (C09). *)
From Coq Require Import Lia.
From Verif Require Import Base Compact Types Indicators Decode.
Local Open Scope list_scope.

Definition lem {E X A} (m1 m2 : M E X A) : Prop :=
  forall p e, fst (fst (m1 p e)) = OutOfFuel \/ m1 p e = m2 p e.

Lemma lem_refl {E X A} (m : M E X A) : lem m m.
Proof. right. reflexivity. Qed.

Lemma lem_bind {E X A B} (m1 m2 : M E X A) (f1 f2 : A -> M E X B) :
  lem m1 m2 -> (forall a, lem (f1 a) (f2 a)) -> lem (bind m1 f1) (bind m2 f2).
Proof.
  intros Hm Hf p e. unfold bind. destruct (Hm p e) as [H|H].
  - left. destruct (m1 p e) as [[o q] e1]. cbn in H. subst o. reflexivity.
  - rewrite <- H. destruct (m1 p e) as [[[a|x| |] q] e1]; try (right; reflexivity). apply Hf.
Qed.

Section Fuel.
Context {E : Type}.
Variable b : buffer E.
Variable r : registry E.

Section Body.
Variable d1 d2 : ty_input -> propagated -> M E parser_err (ext pdata).
Hypothesis Hd : forall i p, lem (d1 i p) (d2 i p).

Lemma fields_loop_lem fs c : lem (fields_loop d1 fs c) (fields_loop d2 fs c).
Proof.
  induction fs as [|f fs IH]; cbn [fields_loop]; [apply lem_refl|].
  apply lem_bind; [apply lem_refl|]. intros p. apply lem_bind; [apply Hd|]. intros d.
  apply lem_bind; [exact IH|]. intros; apply lem_refl.
Qed.

Lemma decode_fields_lem fs c : lem (decode_fields d1 fs c) (decode_fields d2 fs c).
Proof.
  unfold decode_fields. destruct fs as [|f1 [|f2 fs]]; try apply fields_loop_lem.
  apply lem_bind; [apply lem_refl|]. intros. apply fields_loop_lem.
Qed.

Lemma tuple_loop_lem ids c : lem (tuple_loop r d1 ids c) (tuple_loop r d2 ids c).
Proof.
  induction ids as [|i ids IH]; cbn [tuple_loop]; [apply lem_refl|].
  apply lem_bind; [apply lem_refl|]. intros t. apply lem_bind; [apply lem_refl|]. intros p.
  apply lem_bind; [apply Hd|]. intros d. apply lem_bind; [exact IH|]. intros; apply lem_refl.
Qed.

Lemma elements_loop_lem n hu : lem (elements_loop d1 n hu) (elements_loop d2 n hu).
Proof.
  induction n as [|n IH]; cbn [elements_loop]; [apply lem_refl|].
  apply lem_bind; [apply Hd|]. intros d. apply lem_bind; [exact IH|]. intros; apply lem_refl.
Qed.

Lemma decode_elements_lem el n p : lem (decode_elements_set r d1 el n p) (decode_elements_set r d2 el n p).
Proof.
  unfold decode_elements_set. apply lem_bind; [apply lem_refl|]. intros _.
  apply lem_bind; [apply lem_refl|]. intros hu. destruct (n =? 0)%N; [apply lem_refl|].
  apply lem_bind; [apply elements_loop_lem|]. intros; apply lem_refl.
Qed.

Lemma decode_variant_lem vs : lem (decode_variant b d1 vs) (decode_variant b d2 vs).
Proof.
  unfold decode_variant. apply lem_bind; [apply lem_refl|]. intros p.
  apply lem_bind; [apply lem_refl|]. intros v. apply lem_bind; [apply lem_refl|]. intros _.
  apply lem_bind; [apply decode_fields_lem|]. intros; apply lem_refl.
Qed.

Lemma decode_plain_lem t id p : lem (decode_plain b r d1 t id p) (decode_plain b r d2 t id p).
Proof.
  unfold decode_plain. destruct (t_def t) as [fs|vs|el|len el|els|x|inner|s o]; try apply lem_refl.
  - apply lem_bind; [apply decode_fields_lem|]. intros; apply lem_refl.
  - apply lem_bind; [apply lem_refl|]. intros _. destruct vs; [apply lem_refl|].
    apply lem_bind; [apply decode_variant_lem|]. intros; apply lem_refl.
  - apply lem_bind; [apply lem_refl|]. intros n. apply decode_elements_lem.
  - apply decode_elements_lem.
  - destruct els as [|i1 [|i2 ids]];
      try (apply lem_bind; [apply tuple_loop_lem|]; intros; apply lem_refl).
    apply lem_bind; [apply lem_refl|]. intros _.
    apply lem_bind; [apply tuple_loop_lem|]. intros; apply lem_refl.
  - apply lem_bind; [apply lem_refl|]. intros _. apply lem_bind; [apply lem_refl|]. intros c.
    apply Hd.
Qed.

Lemma decode_body_lem i p : lem (decode_body b r d1 i p) (decode_body b r d2 i p).
Proof.
  unfold decode_body. apply lem_bind; [apply lem_refl|]. intros [t id].
  apply lem_bind; [apply lem_refl|]. intros k. destruct k; cbn [decode_checked]; try apply lem_refl.
  - apply decode_plain_lem.
  - apply lem_bind; [apply lem_refl|]. intros _. apply lem_bind; [apply decode_variant_lem|].
    intros; apply lem_refl.
Qed.
End Body.

Lemma decode_lem f1 : forall f2 i p, (f1 <= f2)%nat -> lem (decode b r f1 i p) (decode b r f2 i p).
Proof.
  induction f1 as [|f1 IH]; intros f2 i p H; [intros q e; left; reflexivity|].
  destruct f2 as [|f2]; [lia|]. cbn [decode]. apply decode_body_lem.
  intros i' p'. apply IH. lia.
Qed.
End Fuel.
