(** The number of type lookups (C71): the decoder. *)
From Coq Require Import Lia ZifyBool ZifyNat ZifyN.
From Verif Require Import Base Compact Types Indicators Decode Spec SpecSize SpecLookups
  ProofTables ProofPeel ProofReads ProofLookups.
From Verif Require ProofSafe.
Local Open Scope list_scope.

Lemma nested_step types k : nested types (S k) = (own types + widest types * S (nested types k))%nat.
Proof. reflexivity. Qed.
Lemma nested_grows types k : (nested types k <= nested types (S k))%nat.
Proof.
  induction k as [|k IH].
  - rewrite nested_step. change (nested types 0) with (own types). lia.
  - rewrite (nested_step types (S k)). rewrite (nested_step types k) at 1.
    apply Nat.add_le_mono_l, Nat.mul_le_mono_l. lia.
Qed.
Lemma nested_mono types j k : (j <= k)%nat -> (nested types j <= nested types k)%nat.
Proof.
  induction 1 as [|k _ IH]; [lia|]. pose proof (nested_grows types k). lia.
Qed.
Lemma effort_eq types : effort types =
  (own types + widest types * nested types (S (List.length types)) + nested types (S (List.length types)))%nat.
Proof. unfold effort. lia. Qed.

Lemma list_max_le' l x : In x l -> (x <= list_max l)%nat.
Proof. intros H. pose proof (proj1 (list_max_le l (list_max l)) (le_n _)) as F. rewrite Forall_forall in F. apply F, H. Qed.
Lemma width_widest types id t : lookup types id = Some t -> (width t < widest types)%nat.
Proof.
  intros H. unfold lookup in H. destruct (_ <? _)%N; [|discriminate H]. apply nth_error_In in H. unfold widest.
  apply (in_map width) in H. apply list_max_le' in H. lia.
Qed.
Lemma variant_width vs v t : t_def t = TVariant vs -> In v vs -> (List.length (v_fields v) <= width t)%nat.
Proof. intros H Hv. unfold width. rewrite H. apply list_max_le'. apply in_map_iff. exists v. auto. Qed.

Lemma none_def t : match hinted_from_type t with HtNone | HtMultiSignature | HtPalletSpecific _
  | HtUncheckedExtrinsic => def_of t = Some (t_def t) | _ => True end.
Proof.
  rewrite hinted_classify. unfold hinted_of, def_of. destruct (classify t); try exact I; try reflexivity.
  destruct (strs_eqb _ _); reflexivity.
Qed.

Definition squeezed (c : checker) : bool := match compact_at c with Some _ => true | None => false end.
Definition inp_id (inp : ty_input) : N := match inp with Resolved _ id => id | Symbol id => id end.

(** Arithmetic. *)
Section Arith.
Variables D K : nat.
Definition spent {A} (l p : nat) (H : Prop) (_ : A) (q n : nat) : Prop :=
  exists c, q = (p + c)%nat /\ ((c = 0%nat /\ (n <= l)%nat /\ H) \/ ((0 < c)%nat /\ (n + D <= l + K * c)%nat)).
Definition wasted (l p q n : nat) : Prop := exists c, q = (p + c)%nat /\ (n <= l + K * c)%nat.

Lemma spent_imp {A} l l2 p (H H2 : Prop) (a : A) q n : spent l p H a q n -> (l <= l2)%nat -> (H -> H2) -> spent l2 p H2 a q n.
Proof.
  intros (c & Hq & Hc) Hl Hi. exists c. split; [exact Hq|]. destruct Hc as [(H1 & H3 & H4)|[H1 H3] ]; [left|right]; repeat split; auto; lia.
Qed.
Lemma wasted_imp l l2 p q n : wasted l p q n -> (l <= l2)%nat -> wasted l2 p q n.
Proof. intros (c & Hq & Hc) Hl. exists c. split; [exact Hq|]. lia. Qed.
Lemma wasted_start l p n : (n <= l)%nat -> wasted l p p n.
Proof. intros H. exists 0%nat. split; lia. Qed.
Lemma spent_wasted {A} l p H (a : A) q n : spent l p H a q n -> wasted l p q n.
Proof. intros (c & Hq & Hc). exists c. split; [exact Hq|]. destruct Hc as [(-> & H3 & H4)|[H1 H3] ]; lia. Qed.

Context {E : Type}.
Variable count : E -> nat.
Notation pays := (pays count).

Lemma spent_bind {X A C} l1 l2 p (H1 H2 : Prop) (m : M E X A) (f : A -> M E X C) :
  pays p (spent l1 p H1) (wasted l1 p) m ->
  (forall a q, pays q (spent l2 q H2) (wasted l2 q) (f a)) ->
  pays p (spent (l1 + l2) p (H1 /\ H2)) (wasted (l1 + l2) p) (bind m f).
Proof.
  intros Hm Hf. eapply pays_bind.
  - eapply pays_imp; [exact Hm|intros a q n Ha; exact Ha|]. intros q n Hw. eapply wasted_imp; [exact Hw|lia].
  - intros a q n Hs. destruct Hs as (c & -> & Hc). eapply pays_imp; [apply Hf| |].
    + intros x q n2 (c2 & -> & Hc2). exists (c + c2)%nat. split; [lia|].
      destruct Hc as [(-> & A1 & A2)|[A1 A2] ], Hc2 as [(-> & B1 & B2)|[B1 B2] ]; [left; repeat split; auto; lia|right..]; split; lia.
    + intros q n2 (c2 & -> & Hc2). exists (c + c2)%nat. split; [lia|]. destruct Hc as [(-> & A1 & A2)|[A1 A2] ]; lia.
Qed.
Lemma spent_cost {X A C} n1 l2 l p (P : A -> Prop) (H : Prop) (m : M E X A) (f : A -> M E X C) :
  pays p (costs n1 p P) (halts n1 p) m -> (n1 + l2 <= l)%nat ->
  (forall a, P a -> pays p (spent l2 p H) (wasted l2 p) (f a)) -> pays p (spent l p H) (wasted l p) (bind m f).
Proof.
  intros Hm Hl Hf. eapply pays_bind.
  - eapply pays_imp; [exact Hm|intros a q n Ha; exact Ha|]. intros q n [-> Hn]. apply wasted_start. lia.
  - intros a q n (-> & Hn & Ha). eapply pays_imp; [apply (Hf a Ha)| |].
    + intros x q n2 (c2 & -> & Hc2). exists c2. split; [reflexivity|].
      destruct Hc2 as [(-> & B1 & B2)|[B1 B2] ]; [left|right]; repeat split; auto; lia.
    + intros q n2 (c2 & -> & Hc2). exists c2. split; [reflexivity|]. lia.
Qed.
Lemma spent_ret {X A} l p (H : Prop) (a : A) : H -> pays p (spent l p H) (wasted l p) (@ret E X A a).
Proof. intros Hh. apply pays_ret. exists 0%nat. split; [lia|]. left. repeat split; auto. lia. Qed.
Lemma spent_fail {X A} l p (H : Prop) (x : X) : pays p (spent l p H) (wasted l p) (@fail E X A x).
Proof. apply pays_fail, wasted_start. lia. Qed.
Lemma spent_map {X A C} l p (H : Prop) (m : M E X A) (g : A -> C) : pays p (spent l p H) (wasted l p) m ->
  pays p (spent l p H) (wasted l p) (do x <- m; ret (g x)).
Proof.
  intros Hm. eapply pays_bind; [exact Hm|]. intros a q n Ha. apply pays_ret. rewrite Nat.add_0_r. exact Ha.
Qed.
Lemma spent_weak {X A} l l2 p (H H2 : Prop) (m : M E X A) : pays p (spent l p H) (wasted l p) m -> (l <= l2)%nat -> (H -> H2) ->
  pays p (spent l2 p H2) (wasted l2 p) m.
Proof.
  intros Hm Hl Hi. eapply pays_imp; [exact Hm| |].
  - intros a q n Ha. eapply spent_imp; eauto.
  - intros q n Hw. eapply wasted_imp; eauto.
Qed.
Hypothesis HDK : (D <= K)%nat.
Lemma eats_spent {X A} l p (H : Prop) (m : M E X A) : pays p (eats p) (chews p) m -> pays p (spent l p H) (wasted l p) m.
Proof.
  intros Hm. eapply pays_imp; [exact Hm| |].
  - intros a q n [-> Hq]. exists (q - p)%nat. split; [lia|]. right. split; [lia|].
    assert (K * 1 <= K * (q - p))%nat by (apply Nat.mul_le_mono_l; lia). lia.
  - intros q n [-> Hq]. exists (q - p)%nat. split; [lia|apply Nat.le_0_l].
Qed.
End Arith.

Section Decoder.
Context {E : Type}.
Variable count : E -> nat.
Variable types : list ty.
Variable r : registry E.
Variable b : buffer E.
Hypothesis Hrd : reading_is_free count b.
Hypothesis Hres : counts_lookups count r.
Hypothesis Hans : answers_from types r.
Hypothesis Hno : no_empty_elements types.
Notation pays := (pays count).
Notation NN := (List.length types).
Notation OO := (own types).
Notation WW := (widest types).
Notation LL := (nested types).
Notation DD := (nested types (S (List.length types))).
Notation KK := (effort types).
Notation spent := (spent DD KK).
Notation wasted := (wasted KK).

Lemma K_eq : KK = (OO + WW * DD + DD)%nat.
Proof. apply effort_eq. Qed.
Lemma D_le : (DD <= KK)%nat.
Proof. pose proof K_eq. lia. Qed.

Lemma cost_resolve p id : pays p (costs 1 p (fun t => lookup types id = Some t)) (halts 1 p) (resolve_ty r id).
Proof.
  intros e. unfold resolve_ty. pose proof (Hres id e) as H. pose proof (Hans id e) as Ha.
  destruct (resolve r id e) as [[t|x] e'] eqn:Hr; cbn [snd] in H; exists 1%nat; (split; [lia|]).
  - split; [reflexivity|]. split; [lia|]. exact (Ha _ _ eq_refl).
  - split; [reflexivity|lia].
Qed.
Lemma cost_map_err {X Y A} n p (P : A -> Prop) (g : X -> Y) m : pays p (costs n p P) (halts n p) m ->
  pays p (costs n p P) (halts n p) (map_err g m).
Proof. apply pays_map_err. Qed.

(** *** Types on the way *)
Definition inv (id : N) (cyc : list N) : Prop := NoDup cyc /\ Forall (fun i => (i < N.of_nat NN)%N \/ i = id) cyc.
Lemma inv_length id t cyc : inv id cyc -> lookup types id = Some t -> (List.length cyc <= NN)%nat.
Proof.
  intros [H1 H2] Hl. apply ids_bound; [exact H1|]. apply lookup_lt in Hl. eapply Forall_impl; [|exact H2].
  intros i [H| ->]; [exact H|exact Hl].
Qed.
Lemma inv_check id t c j c1 : inv id (cycle_check c) -> lookup types id = Some t -> check_id c j = inl c1 ->
  inv j (cycle_check c1) /\ List.length (cycle_check c1) = S (List.length (cycle_check c)) /\ compact_at c1 = compact_at c /\ c_hint c1 = c_hint c.
Proof.
  intros [H1 H2] Hl Hc. apply check_id_ok in Hc. destruct Hc as [Hf ->]. cbn [cycle_check compact_at c_hint].
  split; [|rewrite app_length; cbn [List.length]; repeat split; lia]. apply fresh_spec in Hf. split.
  - apply NoDup_rev in H1. rewrite <- (rev_involutive (cycle_check c ++ [j])). apply NoDup_rev. rewrite rev_app_distr. cbn [rev app].
    constructor; [|exact H1]. rewrite <- in_rev. exact Hf.
  - apply Forall_app. split; [|constructor; auto]. apply lookup_lt in Hl. eapply Forall_impl; [|exact H2].
    intros i [H| ->]; auto.
Qed.
Lemma inv_new c j c1 : cycle_check c = [] -> check_id c j = inl c1 ->
  inv j (cycle_check c1) /\ List.length (cycle_check c1) = 1%nat /\ compact_at c1 = compact_at c.
Proof.
  intros H0 Hc. apply check_id_ok in Hc. destruct Hc as [Hf ->]. rewrite H0. cbn [app cycle_check compact_at List.length].
  split; [|split; reflexivity]. split; [constructor; [intros []|constructor]|]. constructor; [right; reflexivity|constructor].
Qed.

(** *** Element types *)
Definition husk_good (n : nat) (cp : bool) (id : N) (hu : husked) : Prop :=
  lookup types (hu_id hu) = Some (hu_ty hu) /\ inv (hu_id hu) (cycle_check (hu_checker hu)) /\
  (n <= List.length (cycle_check (hu_checker hu)))%nat /\
  (hollow types (squeezed (hu_checker hu)) (hu_id hu) -> hollow types cp id).

Lemma cost_husk_loop fuel : forall p t id c acc, lookup types id = Some t -> inv id (cycle_check c) ->
  pays p (costs (S NN - List.length (cycle_check c)) p (husk_good (List.length (cycle_check c)) (squeezed c) id))
    (halts (S NN - List.length (cycle_check c)) p) (husk_loop r fuel t id c acc).
Proof.
  induction fuel as [|fuel IH]; intros p t id c acc Hl Hi; cbn [husk_loop]; [apply pays_fuel; split; lia|].
  set (n := (S NN - List.length (cycle_check c))%nat).
  assert (Hret : forall acc', pays p (costs n p (husk_good (List.length (cycle_check c)) (squeezed c) id)) (halts n p) (@ret E reg_err _ (Husked acc' c t id))).
  { intros. apply cost_ret. repeat split; auto; apply Hi. }
  pose proof (inv_length _ _ _ Hi Hl) as Hlen.
  pose proof (none_def t) as Hd0.
  destruct (hinted_from_type t); try apply Hret.
  destruct (t_def t) as [fs| | | | | |inner|] eqn:Hd; try apply Hret.
  - destruct fs as [|f [|]]; try apply Hret.
    apply (cost_weak count n) with (P := husk_good (List.length (cycle_check c)) (squeezed c) id); auto.
    replace n with (0 + n)%nat by lia.
    apply (cost_bind count 0 n p (fun c1 => check_id c (f_ty f) = inl c1)); [apply cost_lift_int; auto|].
    intros c1 Hc. destruct (inv_check _ _ _ _ _ Hi Hl Hc) as (Hi1 & Hl1 & Hs & _).
    replace n with (1 + (S NN - List.length (cycle_check c1)))%nat by (subst n; lia).
    eapply cost_bind; [apply cost_resolve|]. intros t1 Ht1. cbv beta in Ht1.
    set (c2 := match c_hint c1 with HNone => with_hint c1 (hint_from_field f) | _ => c1 end).
    assert (Hcyc : cycle_check c2 = cycle_check c1) by (unfold c2; destruct (c_hint c1); reflexivity).
    assert (Hsq : squeezed c2 = squeezed c) by (unfold c2, squeezed; rewrite <- Hs; destruct (c_hint c1); reflexivity).
    rewrite <- Hcyc. eapply cost_weak; [apply IH; [exact Ht1|rewrite Hcyc; exact Hi1]|lia|].
    intros hu (A1 & A2 & A3 & A4). repeat split; auto; try apply A2; [rewrite Hcyc in A3; lia|].
    intros Hh. eapply HoStruct; [exact Hl|exact Hd0| |].
    + intros _. cbn. lia.
    + intros f' [<-|[] ]. rewrite <- Hsq. auto.
  - replace n with (0 + (0 + n))%nat by lia.
    apply (cost_bind count 0 (0 + n) p (fun _ => compact_at c = None)).
    { apply cost_lift_int. intros [] H. unfold reject_compact in H. destruct (compact_at c); [discriminate H|reflexivity]. }
    intros _ Hcp. apply (cost_bind count 0 n p (fun c1 => check_id (with_compact_at c id) inner = inl c1)); [apply cost_lift_int; auto|].
    intros c1 Hc. assert (Hi' : inv id (cycle_check (with_compact_at c id))) by exact Hi.
    destruct (inv_check _ _ _ _ _ Hi' Hl Hc) as (Hi1 & Hl1 & Hs & _). change (cycle_check (with_compact_at c id)) with (cycle_check c) in Hl1.
    replace n with (1 + (S NN - List.length (cycle_check c1)))%nat by (subst n; lia).
    eapply cost_bind; [apply cost_resolve|]. intros t1 Ht1. cbv beta in Ht1.
    eapply cost_weak; [apply IH; [exact Ht1|exact Hi1]|lia|].
    intros hu (A1 & A2 & A3 & A4). repeat split; auto; try apply A2; [lia|].
    intros Hh. unfold squeezed. rewrite Hcp. eapply HoCompact; [exact Hl|exact Hd0|].
    assert (squeezed c1 = true) as <-; [unfold squeezed; rewrite Hs; reflexivity|]. auto.
Qed.

Definition ready (c : checker) : Prop := cycle_check c = [] \/ exists id0 t0, inv id0 (cycle_check c) /\ lookup types id0 = Some t0.
Lemma cost_husk p c el : ready c ->
  pays p (costs (S NN) p (husk_good (S (List.length (cycle_check c))) false el)) (halts (S NN) p) (husk_type r el c).
Proof.
  intros Hc0. unfold husk_type.
  change (S NN) with (0 + S NN)%nat.
  apply (cost_bind count 0 (S NN) p (fun c1 => check_id c el = inl c1)); [apply cost_lift_int; auto|]. intros c1 Hc.
  assert (H : inv el (cycle_check c1) /\ List.length (cycle_check c1) = S (List.length (cycle_check c))).
  { destruct Hc0 as [H0|(id0 & t0 & Hi & Hl)].
    - destruct (inv_new _ _ _ H0 Hc) as (A & B & _). rewrite H0. auto.
    - destruct (inv_check _ _ _ _ _ Hi Hl Hc) as (A & B & _). auto. }
  destruct H as [Hi1 Hl1].
  change (S NN) with (1 + NN)%nat. eapply cost_bind; [apply cost_resolve|]. intros t Ht. cbv beta in Ht.
  eapply cost_weak; [apply (cost_husk_loop _ p t el (Checker None HNone (cycle_check c1))); [exact Ht|exact Hi1]| |].
  - cbn [cycle_check]. lia.
  - intros hu H. cbn [cycle_check] in H. rewrite Hl1 in H. exact H.
Qed.

Lemma cost_signature p f : pays p (costs (S (S NN)) p (fun _ => True)) (halts (S (S NN)) p) (signature_from_field r f).
Proof.
  assert (Hret : forall n (s : sig_indicator), pays p (costs n p (fun _ => True)) (halts n p) (@ret E parser_err sig_indicator s)) by (intros; apply cost_ret, I).
  unfold signature_from_field. replace (S (S NN)) with (S NN + 1)%nat by lia.
  eapply cost_bind; [apply cost_catch, (cost_husk p); left; reflexivity|].
  intros [hu|x] _; [|apply Hret].
  destruct (t_def (hu_ty hu)); try apply Hret.
  change 1%nat with (1 + 0)%nat. eapply cost_bind; [apply cost_catch, cost_resolve|]. intros [t|x] _; [|apply Hret].
  destruct (t_def t) as [| | | | |[| | |[]| | |] | |]; try apply Hret.
  destruct (f_type_name f); [|apply Hret].
  repeat match goal with |- ProofReads.pays _ _ _ _ (if ?c then _ else _) => destruct c end; apply Hret.
Qed.

(** What the type is, at most [NN + 3] lookups. *)
Definition seen (p : nat) (t : ty) (x : checked) (q n : nat) : Prop :=
  (n <= NN + 3)%nat /\
  match x with
  | CNone => q = p /\ def_of t = Some (t_def t)
  | CPalletSpecific _ _ vs _ => (p <= q)%nat /\ exists id' t', lookup types id' = Some t' /\ t_def t' = TVariant vs
  | _ => (p <= q)%nat
  end.
Lemma pays_checked p t : pays p (seen p t) (halts (NN + 3) p) (checked_from_type b r t).
Proof.
  unfold checked_from_type. pose proof (none_def t) as Hd0.
  assert (Hnone : forall m, def_of t = Some (t_def t) -> (m <= NN + 3)%nat ->
    pays p (fun c q k => seen p t c q (m + k)) (fun q k => halts (NN + 3) p q (m + k)) (@ret E parser_err _ CNone)).
  { intros m Hd Hm. apply pays_ret. split; [lia|]. split; [reflexivity|exact Hd]. }
  destruct (hinted_from_type t) as [| | | | |item| |]; try (apply (Hnone 0%nat); [exact Hd0|lia]);
    try (apply pays_ret; split; lia).
  - destruct (t_def t) as [|vs| | | | | |] eqn:Hd; try (apply (Hnone 0%nat); [exact Hd0|lia]).
    apply pays_get. eapply pays_bind.
    { eapply pays_imp; [apply cost_catch, free_pick, Hrd|intros a q k H; exact H|]. intros q k [-> H]. split; lia. }
    intros [v|x] q k (-> & Hk & _); [|apply Hnone; [exact Hd0|lia] ].
    destruct (v_fields v) as [|f [|]]; try (apply Hnone; [exact Hd0|lia]).
    eapply pays_bind.
    { eapply pays_imp; [apply cost_signature|intros a q k2 H; exact H|]. intros q k2 [-> H]. split; lia. }
    intros s q k2 (-> & Hk2 & _). destruct s.
    { apply pays_ret. split; [lia|]. split; [reflexivity|congruence]. }
    all: apply pays_set, pays_ret; unfold ENUM_INDEX_ENCODED_LEN; split; lia.
  - destruct (t_def t) as [|vs| | | | | |] eqn:Hd; try (apply (Hnone 0%nat); [exact Hd0|lia]).
    apply pays_get. eapply pays_bind.
    { eapply pays_imp; [apply cost_catch, free_pick, Hrd|intros a q k H; exact H|]. intros q k [-> H]. split; lia. }
    intros [v|x] q k (-> & Hk & _); [|apply Hnone; [exact Hd0|lia] ].
    destruct (v_fields v) as [|f [|]]; try (apply Hnone; [exact Hd0|lia]).
    eapply pays_bind.
    { eapply pays_imp; [apply cost_catch, cost_resolve|intros a q k2 H; exact H|]. intros q k2 [-> H]. split; lia. }
    intros t2 q k2 (-> & Hk2 & Ht2).
    assert (Hnn : pays p (fun c q k' => seen p t c q (k + (k2 + k'))) (fun q k' => halts (NN + 3) p q (k + (k2 + k'))) (@ret E parser_err _ CNone)).
    { apply pays_ret. split; [lia|]. split; [reflexivity|congruence]. }
    destruct t2 as [t2|x]; [|exact Hnn].
    destruct (hinted_from_type t2); try exact Hnn. destruct (pitem_eqb _ _); [|exact Hnn].
    destruct (t_def t2) eqn:Hd2; try exact Hnn.
    apply pays_set, pays_ret. unfold ENUM_INDEX_ENCODED_LEN. split; [lia|]. split; [lia|eauto].
Qed.

Lemma eat_stay {X A C} p (P : C -> Prop) (m : M E X A) (f : A -> M E X C) : pays p (eats p) (chews p) m ->
  (forall a q, pays q (costs 0 q P) (halts 0 q) (f a)) -> pays p (eats p) (chews p) (bind m f).
Proof.
  intros Hm Hf. eapply pays_bind; [exact Hm|]. intros a q n [-> Hq]. eapply pays_imp; [apply Hf| |].
  - intros x q' n (-> & Hn & _). split; lia.
  - intros q' n [-> Hn]. split; lia.
Qed.

(** *** The decoder *)
Definition inp_ok (i : ty_input) : Prop := match i with Resolved t id => lookup types id = Some t | Symbol _ => True end.
(** Types still allowed below. *)
Definition room (c : checker) : nat := (S NN - List.length (cycle_check c))%nat.

Section Step.
Variable dec : ty_input -> propagated -> M E parser_err (ext pdata).
Hypothesis Hdec : forall p i P, inp_ok i -> inv (inp_id i) (cycle_check (checker_of P)) ->
  pays p (spent (LL (room (checker_of P))) p (hollow types (squeezed (checker_of P)) (inp_id i)))
    (wasted (LL (room (checker_of P))) p) (dec i P).

Lemma ready_check c j c1 : ready c -> check_id c j = inl c1 ->
  inv j (cycle_check c1) /\ List.length (cycle_check c1) = S (List.length (cycle_check c)) /\ compact_at c1 = compact_at c.
Proof.
  intros [H0|(id0 & t0 & Hi & Hl)] Hc.
  - destruct (inv_new _ _ _ H0 Hc) as (A & B & C). rewrite H0. auto.
  - destruct (inv_check _ _ _ _ _ Hi Hl Hc) as (A & B & C & _). auto.
Qed.
Lemma for_field_check c f P : ready c -> for_field c f = inl P -> inv (f_ty f) (cycle_check (checker_of P)) /\
  List.length (cycle_check (checker_of P)) = S (List.length (cycle_check c)) /\ squeezed (checker_of P) = squeezed c.
Proof.
  intros Hr H. unfold for_field, update_for_field in H. cbv zeta in H.
  set (c' := match c_hint c with HNone => with_hint c (hint_from_field f) | _ => c end) in H.
  assert (Hc' : cycle_check c' = cycle_check c /\ compact_at c' = compact_at c) by (unfold c'; destruct (c_hint c); split; reflexivity).
  destruct Hc' as [Hy Hz]. destruct (check_id c' (f_ty f)) as [c1|] eqn:Hc; [|discriminate H]. injection H as <-. cbn [checker_of with_checker].
  assert (Hr' : ready c') by (unfold ready; rewrite Hy; exact Hr).
  destruct (ready_check _ _ _ Hr' Hc) as (A & B & C). rewrite Hy in B. repeat split; auto; try apply A.
  unfold squeezed. rewrite C, Hz. reflexivity.
Qed.
Lemma for_ty_check c t i P : ready c -> for_ty c t i = inl P -> inv i (cycle_check (checker_of P)) /\
  List.length (cycle_check (checker_of P)) = S (List.length (cycle_check c)) /\ squeezed (checker_of P) = squeezed c.
Proof.
  intros Hr H. unfold for_ty, update_for_ty in H. destruct (check_id c i) as [c1|] eqn:Hc; [|discriminate H]. injection H as <-.
  cbn [checker_of with_checker]. destruct (ready_check _ _ _ Hr Hc) as (A & B & C).
  assert (Hu : cycle_check (update_from_path c1 (t_path t)) = cycle_check c1 /\ compact_at (update_from_path c1 (t_path t)) = compact_at c1)
    by (unfold update_from_path; destruct (c_hint c1); split; reflexivity).
  destruct Hu as [-> Hu]. repeat split; auto; try apply A. unfold squeezed. rewrite Hu, C. reflexivity.
Qed.

(** Below one more type. *)
Definition inner (c : checker) : nat := LL (NN - List.length (cycle_check c)).
Lemma room_inner c P : List.length (cycle_check (checker_of P)) = S (List.length (cycle_check c)) -> LL (room (checker_of P)) = inner c.
Proof. intros H. unfold room, inner. rewrite H. reflexivity. Qed.
Lemma inner_D c : (inner c <= DD)%nat.
Proof. unfold inner. apply nested_mono. lia. Qed.

Lemma look_fields_loop fs c : ready c -> forall p,
  pays p (spent (List.length fs * inner c) p (forall f, In f fs -> hollow types (squeezed c) (f_ty f)))
    (wasted (List.length fs * inner c) p) (fields_loop dec fs c).
Proof.
  intros Hr. induction fs as [|f fs IH]; intros p; cbn [fields_loop]; [apply spent_ret; intros f []|].
  eapply (spent_cost _ _ count 0 (inner c + List.length fs * inner c)) with (P := fun P => for_field c f = inl P);
    [apply cost_lift_p; auto|cbn [List.length]; lia|]. intros P HP.
  destruct (for_field_check _ _ _ Hr HP) as (Hi & Hl & Hs).
  eapply spent_weak with (H := hollow types (squeezed c) (f_ty f) /\ (forall g, In g fs -> hollow types (squeezed c) (f_ty g))); [|apply le_n|].
  - apply spent_bind.
    + rewrite <- (room_inner c P Hl), <- Hs. apply (Hdec p (Symbol (f_ty f)) P I Hi).
    + intros a q. apply spent_map, IH.
  - intros [H1 H2] g [<-|Hg]; auto.
Qed.
Lemma ready_forget c : ready c -> ready (forget_hint c).
Proof. exact (fun H => H). Qed.
Lemma look_fields p fs c : ready c ->
  pays p (spent (List.length fs * inner c) p ((squeezed c = true -> List.length fs < 2)%nat /\ forall f, In f fs -> hollow types (squeezed c) (f_ty f)))
    (wasted (List.length fs * inner c) p) (decode_fields dec fs c).
Proof.
  intros Hr. unfold decode_fields. destruct fs as [|f [|f2 fs]].
  1,2: eapply spent_weak; [apply look_fields_loop, Hr|apply le_n|]; intros H; split; [intros _; cbn; lia|exact H].
  eapply (spent_cost _ _ count 0); [apply cost_reject|apply le_n|]. intros [] Hc. cbv beta in Hc.
  eapply spent_weak; [apply (look_fields_loop (f :: f2 :: fs) (forget_hint c) (ready_forget c Hr))|apply le_n|].
  intros H. split; [unfold squeezed; rewrite Hc; discriminate|exact H].
Qed.
Lemma inner_new : inner checker_new = LL NN.
Proof. unfold inner. cbn [checker_new cycle_check List.length]. rewrite Nat.sub_0_r. reflexivity. Qed.

(** An index and the fields. *)
Lemma look_variant p vs id' t' : lookup types id' = Some t' -> t_def t' = TVariant vs ->
  pays p (fun _ q n => exists c, q = (p + S c)%nat /\ (n <= WW * DD + KK * c)%nat)
    (wasted 0 p) (decode_variant b dec vs).
Proof.
  intros Hl Ht. unfold decode_variant. apply pays_get. eapply pays_bind.
  { eapply pays_imp; [apply free_pick, Hrd|intros a q n H; exact H|]. intros q n [-> Hn]. exists 0%nat. split; lia. }
  intros v q n (-> & Hn & Hv). assert (n = 0)%nat as -> by lia. apply pays_set. unfold ENUM_INDEX_ENCODED_LEN.
  assert (Hw : (List.length (v_fields v) * inner checker_new <= WW * DD)%nat).
  { apply Nat.mul_le_mono; [|apply inner_D]. pose proof (variant_width _ _ _ Ht Hv). pose proof (width_widest _ _ _ Hl). lia. }
  eapply pays_bind.
  { eapply pays_imp; [apply look_fields; left; reflexivity|intros a q n H; exact H|].
    intros q n (c & -> & Hc). exists (S c). split; [lia|]. pose proof K_eq. lia. }
  intros fs q n Hs. apply spent_wasted in Hs. destruct Hs as (c & -> & Hc). apply pays_ret. exists c. split; lia.
Qed.

Lemma look_elements_loop k hu : inp_ok (Resolved (hu_ty hu) (hu_id hu)) -> inv (hu_id hu) (cycle_check (hu_checker hu)) ->
  (LL (room (hu_checker hu)) <= k)%nat -> forall n p,
  pays p (spent (n * k) p (n <> 0%nat -> hollow types (squeezed (hu_checker hu)) (hu_id hu)))
    (wasted (n * k) p) (elements_loop dec n hu).
Proof.
  intros Ho Hi Hk. induction n as [|n IH]; intros p; cbn [elements_loop]; [apply spent_ret; congruence|].
  eapply spent_weak with (H := hollow types (squeezed (hu_checker hu)) (hu_id hu) /\ (n <> 0%nat -> hollow types (squeezed (hu_checker hu)) (hu_id hu)));
    [|apply le_n|intros [H _] _; exact H].
  cbn [Nat.mul]. apply spent_bind.
  - eapply spent_weak; [apply (Hdec p (Resolved (hu_ty hu) (hu_id hu)) (with_checker (hu_checker hu)) Ho Hi)|exact Hk|auto].
  - intros a q. apply spent_map, IH.
Qed.
(** Elements of a vector take bytes. *)
Lemma look_elements_vec hu : inp_ok (Resolved (hu_ty hu) (hu_id hu)) -> inv (hu_id hu) (cycle_check (hu_checker hu)) ->
  ~ hollow types (squeezed (hu_checker hu)) (hu_id hu) -> forall n p,
  pays p (fun _ q m => exists c, q = (p + c)%nat /\ (m <= KK * c)%nat)
    (fun q m => exists c, q = (p + c)%nat /\ (m <= DD + KK * c)%nat) (elements_loop dec n hu).
Proof.
  intros Ho Hi Hh. assert (Hk : (LL (room (hu_checker hu)) <= DD)%nat) by (unfold room; apply nested_mono; lia).
  induction n as [|n IH]; intros p; cbn [elements_loop]; [apply pays_ret; exists 0%nat; split; lia|].
  eapply pays_bind with (Q := fun _ q m => exists c, q = (p + c)%nat /\ (m <= KK * c)%nat).
  - eapply pays_imp; [apply (Hdec p (Resolved (hu_ty hu) (hu_id hu)) (with_checker (hu_checker hu)) Ho Hi)| |].
    + intros a q m (c & -> & [(-> & _ & H)|[Hc Hm] ]); [elim Hh; exact H|]. cbn [with_checker checker_of] in Hm. exists c. split; lia.
    + intros q m (c & -> & Hm). cbn [with_checker checker_of] in Hm. exists c. split; lia.
  - intros a q m (c & -> & Hm). eapply pays_bind.
    { eapply pays_imp; [apply IH|intros x q m2 H; exact H|]. intros q m2 (c2 & -> & Hm2). exists (c + c2)%nat. split; lia. }
    intros x q m2 (c2 & -> & Hm2). apply pays_ret. exists (c + c2)%nat. split; lia.
Qed.

Lemma look_array p el n P : ready (checker_of P) ->
  pays p (spent (S NN + N.to_nat n * inner (checker_of P)) p (compact_at (checker_of P) = None /\ (n <> 0%N -> hollow types false el)))
    (wasted (S NN + N.to_nat n * inner (checker_of P)) p) (decode_elements_set r dec el n P).
Proof.
  intros Hr. unfold decode_elements_set. eapply (spent_cost _ _ count 0); [apply cost_reject|apply le_n|]. intros [] Hc. cbv beta in Hc.
  eapply (spent_cost _ _ count (S NN)); [apply cost_map_err, cost_husk, Hr|apply le_n|].
  intros hu (Hl & Hi & Hn & Hh). destruct (N.eqb_spec n 0) as [->|Hn0].
  - apply spent_ret. split; [exact Hc|congruence].
  - apply spent_map. eapply spent_weak; [apply (look_elements_loop (inner (checker_of P)) hu Hl Hi)|apply le_n|].
    + unfold room, inner. apply nested_mono. lia.
    + intros H. split; [exact Hc|]. intros _. apply Hh, H. lia.
Qed.
Lemma look_vec p id t el n P : lookup types id = Some t -> def_of t = Some (TSequence el) -> ready (checker_of P) ->
  pays p (fun _ q m => exists c, q = (p + c)%nat /\ (m <= S NN + KK * c)%nat)
    (fun q m => exists c, q = (p + c)%nat /\ (m <= S NN + DD + KK * c)%nat) (decode_elements_set r dec el n P).
Proof.
  intros Hl Hd Hr. unfold decode_elements_set. eapply pays_bind.
  { eapply pays_imp; [apply cost_reject|intros a q m H; exact H|]. intros q m [-> H]. exists 0%nat. split; lia. }
  intros [] q m (-> & Hm & Hc). eapply pays_bind.
  { eapply pays_imp; [apply cost_map_err, cost_husk, Hr|intros a q m2 H; exact H|]. intros q m2 [-> H]. exists 0%nat. split; lia. }
  intros hu q m2 (-> & Hm2 & Hlh & Hi & Hn & Hh). destruct (n =? 0)%N.
  - apply pays_ret. exists 0%nat. split; lia.
  - assert (Hno' : ~ hollow types (squeezed (hu_checker hu)) (hu_id hu)).
    { intros H. apply Hh in H. apply hollow_enc in H. destruct H as [v Hv]. exact (Hno _ _ _ _ Hl Hd Hv). }
    eapply pays_bind.
    { eapply pays_imp; [apply (look_elements_vec hu Hlh Hi Hno')|intros a q m3 H; exact H|]. intros q m3 (c & -> & H). exists c. split; lia. }
    intros l q m3 (c & -> & H). apply pays_ret. exists c. split; lia.
Qed.

Lemma look_tuple_loop ids c : ready c -> forall p,
  pays p (spent (List.length ids * S (inner c)) p (forall i, In i ids -> hollow types (squeezed c) i))
    (wasted (List.length ids * S (inner c)) p) (tuple_loop r dec ids c).
Proof.
  intros Hr. induction ids as [|i ids IH]; intros p; cbn [tuple_loop]; [apply spent_ret; intros f []|].
  eapply (spent_cost _ _ count 1 (inner c + List.length ids * S (inner c))); [apply cost_map_err, cost_resolve|cbn [List.length]; lia|].
  intros t Ht. cbv beta in Ht.
  eapply (spent_cost _ _ count 0) with (P := fun P => for_ty c t i = inl P); [apply cost_lift_p; auto|apply le_n|]. intros P HP.
  destruct (for_ty_check _ _ _ _ Hr HP) as (Hi & Hl & Hs).
  eapply spent_weak with (H := hollow types (squeezed c) i /\ (forall g, In g ids -> hollow types (squeezed c) g)); [|apply le_n|].
  - apply spent_bind.
    + rewrite <- (room_inner c P Hl), <- Hs. apply (Hdec p (Resolved t i) P Ht Hi).
    + intros a q. apply spent_map, IH.
  - intros [H1 H2] g [<-|Hg]; auto.
Qed.

Lemma cost_bit_order p order id : pays p (costs 1 p (fun _ => True)) (halts 1 p) (find_bit_order_ty r order id).
Proof.
  unfold find_bit_order_ty. change 1%nat with (1 + 0)%nat. eapply cost_bind; [apply cost_resolve|]. intros t _.
  destruct (t_def t); try apply cost_fail. destruct (path_ident (t_path t)); [|apply cost_fail].
  destruct (String.eqb _ _); [apply cost_ret, I|]. destruct (String.eqb _ _); [apply cost_ret, I|apply cost_fail].
Qed.
Lemma look_bits p store order id H : pays p (spent 2 p H) (wasted 2 p) (decode_bit_sequence b r store order id).
Proof.
  unfold decode_bit_sequence. apply pays_get.
  eapply (spent_cost _ _ count 1 1); [apply cost_map_err, cost_bit_order|lia|]. intros o _.
  eapply (spent_cost _ _ count 1 0); [apply cost_map_err, cost_resolve|lia|]. intros t _.
  destruct (t_def t) as [| | | | |[| | |w| | |] | |]; try apply spent_fail. destruct w; try apply spent_fail.
  all: apply eats_spent; [apply D_le|]; eapply eat_stay with (P := fun _ => True); [apply eat_bitvec, Hrd|].
  all: intros l q; destruct (bitvec_decode_all _ o l); [apply cost_ret, I|apply cost_fail].
Qed.

(** A type of its own: without finding out what it is. *)
Definition plain_cost (c : checker) : nat := (NN + 4 + WW * S (inner c))%nat.

Lemma look_plain p t id P : lookup types id = Some t -> def_of t = Some (t_def t) -> inv id (cycle_check (checker_of P)) ->
  pays p (spent (plain_cost (checker_of P)) p (hollow types (squeezed (checker_of P)) id))
    (wasted (plain_cost (checker_of P)) p) (decode_plain b r dec t id P).
Proof.
  intros Hl Hd Hi. assert (Hr : ready (checker_of P)) by (right; eauto).
  pose proof (width_widest _ _ _ Hl) as Hw. pose proof K_eq as HK. unfold plain_cost.
  set (c := checker_of P) in *. set (k := inner c) in *.
  assert (Hmul : forall n, (n <= WW)%nat -> (n * k <= WW * S k)%nat) by (intros n Hn; apply Nat.mul_le_mono; lia).
  assert (Hsq : compact_at c = None -> squeezed c = false) by (unfold squeezed; intros ->; reflexivity).
  unfold decode_plain, width in *. fold c.
  destruct (t_def t) as [fs|vs|el|len el|ids|x|inn|store order] eqn:Hdef.
  - apply spent_map. eapply spent_weak; [apply look_fields, Hr|specialize (Hmul (List.length fs)); lia|].
    intros [H1 H2]. eapply HoStruct; eauto.
  - eapply (spent_cost _ _ count 0); [apply cost_reject|apply le_n|]. intros [] Hc. cbv beta in Hc.
    destruct vs as [|v vs]; [apply spent_ret; rewrite (Hsq Hc); eapply HoNever; eauto|].
    apply spent_map. eapply pays_imp; [apply (look_variant p (v :: vs) id t Hl Hdef)| |].
    + intros a q n (m & -> & Hm). exists (S m). split; [reflexivity|]. right. split; lia.
    + intros q n H. eapply wasted_imp; [exact H|lia].
  - eapply pays_bind with (Q := fun _ q n => n = 0%nat /\ (p < q)%nat).
    { eapply pays_imp; [apply eat_get_compact, Hrd|intros a q n H; exact H|].
      intros q n [-> Hq]. exists (q - p)%nat. split; [lia|apply Nat.le_0_l]. }
    intros n q m [-> Hq]. assert (Hmin : (KK * 1 <= KK * (q - p))%nat) by (apply Nat.mul_le_mono_l; lia).
    assert (HO : OO = (2 * NN + 8)%nat) by reflexivity.
    eapply pays_imp; [apply (look_vec q id t el n (Propagated (drop_cycle_check c) (info_of P)) Hl Hd); left; reflexivity| |].
    + intros a q' m (c' & -> & Hm). exists (q - p + c')%nat. split; [lia|]. right. split; [lia|]. rewrite Nat.mul_add_distr_l. lia.
    + intros q' m (c' & -> & Hm). exists (q - p + c')%nat. split; [lia|]. rewrite Nat.mul_add_distr_l. lia.
  - eapply spent_weak; [apply (look_array p el len P Hr)|fold c; fold k; specialize (Hmul (N.to_nat len)); lia|].
    intros [H1 H2]. fold c in H1. rewrite (Hsq H1). eapply HoArray; eauto.
  - assert (Ht : (List.length ids * S k <= WW * S k)%nat) by (apply Nat.mul_le_mono_r; lia).
    destruct ids as [|i [|i2 ids]].
    1,2: apply spent_map; eapply spent_weak; [apply look_tuple_loop, Hr|fold k; lia|];
      intros H; eapply HoTuple; [exact Hl|exact Hd|intros _; cbn; lia|exact H].
    eapply (spent_cost _ _ count 0); [apply cost_reject|apply le_n|]. intros [] Hc. cbv beta in Hc.
    apply spent_map. eapply spent_weak; [apply (look_tuple_loop (i :: i2 :: ids) (forget_hint c) Hr)|change (inner (forget_hint c)) with k; lia|].
    intros H. change (squeezed (forget_hint c)) with (squeezed c) in H.
    eapply HoTuple; [exact Hl|exact Hd|rewrite (Hsq Hc); discriminate|exact H].
  - apply spent_map, eats_spent; [apply D_le|apply eat_primitive, Hrd].
  - eapply (spent_cost _ _ count 0); [apply cost_reject|apply le_n|]. intros [] Hc. cbv beta in Hc.
    eapply (spent_cost _ _ count 0) with (P := fun c1 => check_id (with_compact_at c id) inn = inl c1); [apply cost_lift_p; auto|apply le_n|].
    intros c1 Hc1. assert (Hr' : ready (with_compact_at c id)) by exact Hr.
    destruct (ready_check _ _ _ Hr' Hc1) as (A & B & C). change (cycle_check (with_compact_at c id)) with (cycle_check c) in B.
    eapply spent_weak; [apply (Hdec p (Symbol inn) (Propagated c1 (info_of P)) I A)| |].
    + cbn [checker_of]. specialize (Hmul 1%nat). pose proof (room_inner c (Propagated c1 (info_of P)) B) as Hri. cbn [checker_of] in Hri. rewrite Hri. fold k. lia.
    + cbn [checker_of inp_id]. intros H. rewrite (Hsq Hc). eapply HoCompact; [exact Hl|exact Hd|].
      assert (squeezed c1 = true) as <-; [unfold squeezed; rewrite C; reflexivity|exact H].
  - eapply (spent_cost _ _ count 0); [apply cost_reject|apply le_n|]. intros [] Hc.
    apply spent_map. eapply spent_weak; [apply (look_bits p store order id False)|lia|tauto].
Qed.

Lemma look_checked p q0 n0 k t id P : lookup types id = Some t -> inv id (cycle_check (checker_of P)) -> seen p t k q0 n0 -> (p <= q0)%nat ->
  pays q0 (fun a q n => spent (OO - 1 + WW * S (inner (checker_of P))) p (hollow types (squeezed (checker_of P)) id) a q (n0 + n))
    (fun q n => wasted (OO - 1 + WW * S (inner (checker_of P))) p q (n0 + n)) (decode_checked b r dec k t id P).
Proof.
  intros Hl Hi Hseen Hq0. assert (HO : OO = (2 * NN + 8)%nat) by reflexivity. pose proof K_eq as HK.
  destruct Hseen as [Hn0 Hk]. set (l := (OO - 1 + WW * S (inner (checker_of P)))%nat). set (c := checker_of P) in *.
  assert (Hl0 : (n0 + plain_cost c <= l)%nat) by (unfold plain_cost, l; lia).
  assert (Hl1 : (n0 <= l)%nat) by (unfold l; lia).
  assert (Heat : forall (m : M E parser_err pdata) (g : pdata -> ext pdata), pays q0 (eats q0) (chews q0) m ->
    pays q0 (fun a q n => spent l p (hollow types (squeezed c) id) a q (n0 + n)) (fun q n => wasted l p q (n0 + n)) (do x <- m; ret (g x))).
  { intros m g Hm. eapply pays_imp; [apply eat_ret; exact Hm| |].
    - intros a q n [-> Hq]. exists (q - p)%nat. split; [lia|]. right. split; [lia|].
      assert (KK * 1 <= KK * (q - p))%nat by (apply Nat.mul_le_mono_l; lia). lia.
    - intros q n [-> Hq]. exists (q - p)%nat. split; [lia|]. assert (0 <= KK * (q - p))%nat by apply Nat.le_0_l. lia. }
  assert (Hrej : forall (m : M E parser_err pdata) (g : pdata -> ext pdata), pays q0 (eats q0) (chews q0) m ->
    pays q0 (fun a q n => spent l p (hollow types (squeezed c) id) a q (n0 + n)) (fun q n => wasted l p q (n0 + n))
      (reject_compact_m c ;; do x <- m; ret (g x))).
  { intros m g Hm. eapply pays_bind.
    - eapply pays_imp; [apply cost_reject|intros a q n H; exact H|]. intros q n [-> Hn]. exists (q0 - p)%nat. split; [lia|].
      assert (0 <= KK * (q0 - p))%nat by apply Nat.le_0_l. lia.
    - intros [] q n (-> & Hn & _). assert (n = 0)%nat as -> by lia. apply Heat, Hm. }
  destruct k as [|f| | |nm inf vs it|f]; cbn [decode_checked].
  - destruct Hk as [-> Hd]. eapply pays_imp; [apply look_plain; eassumption| |]; fold c.
    + intros a q n (m & -> & Hm). exists m. split; [reflexivity|]. destruct Hm as [(-> & H1 & H2)|[H1 H2] ]; [left|right]; repeat split; auto; lia.
    + intros q n (m & -> & Hm). exists m. split; [reflexivity|]. lia.
  - apply Heat, eat_fixed, Hrd.
  - apply Hrej, eat_era, Hrd.
  - apply Hrej, eat_h256, Hrd.
  - destruct Hk as (_ & id' & t' & Hl' & Hd'). eapply pays_bind.
    { eapply pays_imp; [apply cost_reject|intros a q n H; exact H|]. intros q n [-> Hn]. exists (q0 - p)%nat. split; [lia|].
      assert (0 <= KK * (q0 - p))%nat by apply Nat.le_0_l. lia. }
    intros [] q n (-> & Hn & _). assert (n = 0)%nat as -> by lia.
    eapply pays_bind.
    { eapply pays_imp; [apply (look_variant q0 vs id' t' Hl' Hd')|intros a q n H; exact H|].
      intros q n (m & -> & Hm). exists (q0 - p + m)%nat. split; [lia|]. rewrite Nat.mul_add_distr_l.
      assert (0 <= KK * (q0 - p))%nat by apply Nat.le_0_l. lia. }
    intros v q n (m & -> & Hm). apply pays_ret. exists (q0 - p + S m)%nat. split; [lia|]. right. split; [lia|].
    rewrite Nat.mul_add_distr_l. assert (0 <= KK * (q0 - p))%nat by apply Nat.le_0_l. lia.
  - apply Heat, eat_per, Hrd.
Qed.

Lemma look_body p i P : inp_ok i -> inv (inp_id i) (cycle_check (checker_of P)) ->
  pays p (spent (LL (room (checker_of P))) p (hollow types (squeezed (checker_of P)) (inp_id i)))
    (wasted (LL (room (checker_of P))) p) (decode_body b r dec i P).
Proof.
  intros Ho Hi. assert (HO : OO = (2 * NN + 8)%nat) by reflexivity.
  assert (Hpos : (1 <= LL (room (checker_of P)))%nat).
  { pose proof (nested_mono types 0 (room (checker_of P)) (Nat.le_0_l _)) as H. change (LL 0) with OO in H. lia. }
  assert (Hgo : forall t id, lookup types id = Some t -> id = inp_id i -> 
    pays p (spent (LL (room (checker_of P)) - 1) p (hollow types (squeezed (checker_of P)) id)) (wasted (LL (room (checker_of P)) - 1) p)
      (do k <- checked_from_type b r t; decode_checked b r dec k t id (add_info P (info_from_ty t)))).
  { intros t id Hl ->. pose proof (inv_length _ _ _ Hi Hl) as Hlen.
    assert (Hroom : (LL (room (checker_of P)) = OO + WW * S (inner (checker_of P)))%nat).
    { unfold room, inner. rewrite Nat.sub_succ_l by exact Hlen. apply nested_step. }
    rewrite Hroom. assert (Hp : checker_of (add_info P (info_from_ty t)) = checker_of P) by (unfold add_info; destruct (info_is_empty _); reflexivity).
    replace (OO + WW * S (inner (checker_of P)) - 1)%nat with (OO - 1 + WW * S (inner (checker_of P)))%nat by lia.
    eapply pays_bind.
    { eapply pays_imp; [apply pays_checked|intros a q n H; exact H|]. intros q n [-> Hn]. apply wasted_start. lia. }
    intros k q n Hs. rewrite <- Hp. apply look_checked with (q0 := q); auto; [rewrite Hp; exact Hi|].
    destruct Hs as [_ Hs]. destruct k; lia. }
  unfold decode_body. destruct i as [t id|id]; cbn [inp_id inp_ok] in *.
  - eapply (spent_cost _ _ count 0) with (P := fun x => x = (t, id)); [apply cost_ret; reflexivity|apply le_n|].
    intros [t' id'] Hx. injection Hx as -> ->. cbv zeta. eapply spent_weak; [apply Hgo; auto|lia|auto].
  - eapply (spent_cost _ _ count 1 (LL (room (checker_of P)) - 1)) with (P := fun x => snd x = id /\ lookup types id = Some (fst x)).
    { change 1%nat with (1 + 0)%nat. eapply cost_bind; [apply cost_map_err, cost_resolve|]. intros t Ht. apply cost_ret. auto. }
    { lia. }
    intros [t id'] [Hid Ht]. cbn [fst snd] in *. subst id'. cbv zeta. apply Hgo; auto.
Qed.
End Step.

Lemma look_decode fuel : forall p i P, inp_ok i -> inv (inp_id i) (cycle_check (checker_of P)) ->
  pays p (spent (LL (room (checker_of P))) p (hollow types (squeezed (checker_of P)) (inp_id i)))
    (wasted (LL (room (checker_of P))) p) (decode b r fuel i P).
Proof.
  induction fuel as [|fuel IH]; intros p i P Ho Hi; cbn [decode]; [apply pays_fuel, wasted_start; lia|]. apply look_body; auto.
Qed.

(** The bound, for any outcome. *)
Definition bounded (p q n : nat) : Prop := (p <= q /\ n <= KK * S (q - p))%nat.
Lemma wasted_bounded l p q n : (l <= DD)%nat -> wasted l p q n -> bounded p q n.
Proof.
  intros Hl (c & -> & Hc). pose proof D_le. split; [lia|]. replace (p + c - p)%nat with c by lia. rewrite Nat.mul_succ_r. lia.
Qed.
Lemma look_type p i P : inp_ok i -> cycle_check (checker_of P) = [] ->
  pays p (fun _ => bounded p) (bounded p) (decode_with_type b r i P).
Proof.
  intros Ho Hc. assert (Hi : inv (inp_id i) (cycle_check (checker_of P))) by (rewrite Hc; split; constructor).
  assert (Hroom : (LL (room (checker_of P)) <= DD)%nat) by (unfold room; apply nested_mono; lia).
  eapply pays_imp; [apply look_decode; assumption| |].
  - intros a q n H. apply spent_wasted in H. apply (wasted_bounded _ _ _ _ Hroom H).
  - intros q n H. apply (wasted_bounded _ _ _ _ Hroom H).
Qed.
Lemma look_at p id : pays p (fun _ => bounded p) (bounded p) (decode_as_type_at_position b r id).
Proof. apply look_type; [exact I|reflexivity]. Qed.
Lemma look_all p id : pays p (fun _ => bounded 0) (bounded 0) (decode_all_body b r id).
Proof.
  unfold decode_all_body. apply pays_set. eapply pays_bind; [apply look_at|]. intros out q n H. apply pays_get.
  destruct (Nat.eqb _ _); [apply pays_ret|apply pays_fail]; rewrite Nat.add_0_r; exact H.
Qed.
End Decoder.
