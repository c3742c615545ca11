(** Two computations that behave alike: same positions, same memory, same errors, related
    results. *)
From Verif Require Import Base Compact Types Indicators Decode.
Local Open Scope list_scope.

Definition orel {X A B} (R : A -> B -> Prop) (o1 : outcome X A) (o2 : outcome X B) : Prop :=
  match o1, o2 with
  | Ok a, Ok b => R a b
  | Err x, Err y => x = y
  | Panic, Panic => True
  | OutOfFuel, OutOfFuel => True
  | _, _ => False
  end.

Definition alike {E X A B} (R : A -> B -> Prop) (x1 : outcome X A * nat * E) (x2 : outcome X B * nat * E) : Prop :=
  snd (fst x1) = snd (fst x2) /\ snd x1 = snd x2 /\ orel R (fst (fst x1)) (fst (fst x2)).

Definition sim {E X A B} (R : A -> B -> Prop) (m1 : M E X A) (m2 : M E X B) : Prop :=
  forall p e, alike R (m1 p e) (m2 p e).

Lemma orel_refl {X A} (R : A -> A -> Prop) (o : outcome X A) : (forall a, R a a) -> orel R o o.
Proof. destruct o; cbn; auto. Qed.

Lemma sim_same {E X A} (R : A -> A -> Prop) (m : M E X A) : (forall a, R a a) -> sim R m m.
Proof. intros H p e. repeat split. apply orel_refl, H. Qed.

Lemma sim_eq {E X A} (m : M E X A) : sim eq m m.
Proof. apply sim_same. reflexivity. Qed.

Lemma sim_bind {E X A B C D} (R : A -> B -> Prop) (Q : C -> D -> Prop)
    (m1 : M E X A) (m2 : M E X B) (f1 : A -> M E X C) (f2 : B -> M E X D) :
  sim R m1 m2 -> (forall a b, R a b -> sim Q (f1 a) (f2 b)) -> sim Q (bind m1 f1) (bind m2 f2).
Proof.
  intros Hm Hf p e. unfold bind. specialize (Hm p e). unfold alike in Hm.
  destruct (m1 p e) as [[o1 q1] e1], (m2 p e) as [[o2 q2] e2]. cbn [fst snd] in Hm.
  destruct Hm as (-> & -> & Ho). destruct o1, o2; cbn in Ho; try contradiction; repeat split; auto.
  - apply (Hf _ _ Ho).
  - apply (Hf _ _ Ho).
  - apply (Hf _ _ Ho).
Qed.

Lemma sim_ret {E X A B} (R : A -> B -> Prop) a b : R a b -> sim R (@ret E X A a) (@ret E X B b).
Proof. intros H p e. repeat split. exact H. Qed.

Lemma sim_fail {E X A B} (R : A -> B -> Prop) (x : X) : sim R (@fail E X A x) (@fail E X B x).
Proof. intros p e. repeat split. Qed.

Lemma sim_lift {E X A B} (R : A -> B -> Prop) (x : A + X) (y : B + X) :
  match x, y with inl a, inl b => R a b | inr a, inr b => a = b | _, _ => False end ->
  sim R (@lift E X A x) (@lift E X B y).
Proof.
  destruct x, y; cbn; try contradiction; intros H; [apply sim_ret, H|subst; apply sim_fail].
Qed.

Lemma sim_map_err {E X Y A B} (R : A -> B -> Prop) (g : X -> Y) (m1 : M E X A) (m2 : M E X B) :
  sim R m1 m2 -> sim R (map_err g m1) (map_err g m2).
Proof.
  intros H p e. specialize (H p e). unfold map_err, alike in *.
  destruct (m1 p e) as [[o1 q1] e1], (m2 p e) as [[o2 q2] e2]. cbn [fst snd] in H.
  destruct H as (-> & -> & H). destruct o1, o2; cbn in *; try contradiction; repeat split; auto; congruence.
Qed.

Lemma sim_catch {E X Y A B} (R : A -> B -> Prop) (m1 : M E X A) (m2 : M E X B) : sim R m1 m2 ->
  sim (fun x y => match x, y with inl a, inl b => R a b | inr a, inr b => a = b | _, _ => False end)
      (@catch E X Y A m1) (@catch E X Y B m2).
Proof.
  intros H p e. specialize (H p e). unfold catch, alike in *.
  destruct (m1 p e) as [[o1 q1] e1], (m2 p e) as [[o2 q2] e2]. cbn [fst snd] in H.
  destruct H as (-> & -> & H). destruct o1, o2; cbn in *; try contradiction; repeat split; auto.
Qed.

Lemma sim_imp {E X A B} (R Q : A -> B -> Prop) (m1 : M E X A) (m2 : M E X B) :
  sim R m1 m2 -> (forall a b, R a b -> Q a b) -> sim Q m1 m2.
Proof.
  intros H Hi p e. specialize (H p e). unfold alike in *. destruct H as (H1 & H2 & H3). repeat split; auto.
  destruct (fst (fst (m1 p e))), (fst (fst (m2 p e))); cbn in *; auto.
Qed.
