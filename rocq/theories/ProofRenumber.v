(** C70: the decoder does not depend on the numbers of the types. *)
From Coq Require Import Lia Relations.
From Verif Require Import Base Compact Types Indicators Decode Sign Storage Unchecked Spec SpecSource SpecReach SpecRenumber
  ProofBase ProofTables ProofFuel ProofSafe ProofSafe2 ProofReach.
Local Open Scope list_scope.

(** Related results: same position and memory, related values, errors mapped by [fe]. *)
Definition relres {E X A} (fe : X -> X) (R : A -> A -> Prop) (x1 x2 : outcome X A * nat * E) : Prop :=
  snd x2 = snd x1 /\ snd (fst x2) = snd (fst x1) /\
  match fst (fst x1), fst (fst x2) with
  | Ok a, Ok a' => R a a'
  | Err x, Err y => y = fe x
  | Panic, Panic => True
  | OutOfFuel, OutOfFuel => True
  | _, _ => False
  end.

(** Related unless [m1] runs out of fuel. *)
Definition lemr {E X A} (fe : X -> X) (R : A -> A -> Prop) (m1 m2 : M E X A) : Prop :=
  forall p e, fst (fst (m1 p e)) = OutOfFuel \/ relres fe R (m1 p e) (m2 p e).

Definition idr {X} (x : X) : X := x.

Section Rules.
Context {E X : Type}.
Variable fe : X -> X.

Lemma lemr_ret {A} (R : A -> A -> Prop) a a' : R a a' -> lemr fe R (@ret E X A a) (ret a').
Proof. intros H p e. right. repeat split. exact H. Qed.

Lemma lemr_fail {A} (R : A -> A -> Prop) x y : y = fe x -> lemr fe R (@fail E X A x) (fail y).
Proof. intros H p e. right. repeat split. exact H. Qed.

Lemma lemr_panic {A} (R : A -> A -> Prop) : lemr fe R (@panic E X A) panic.
Proof. intros p e. right. repeat split. Qed.

Lemma lemr_get : lemr fe eq (@get_pos E X) get_pos.
Proof. intros p e. right. repeat split. Qed.

Lemma lemr_set q : lemr fe eq (@set_pos E X q) (set_pos q).
Proof. intros p e. right. repeat split. Qed.

Lemma lemr_bind {A B} (P : A -> A -> Prop) (R : B -> B -> Prop) (m1 m2 : M E X A) (f1 f2 : A -> M E X B) :
  lemr fe P m1 m2 -> (forall a a', P a a' -> lemr fe R (f1 a) (f2 a')) -> lemr fe R (bind m1 f1) (bind m2 f2).
Proof.
  intros Hm Hf p e. unfold bind. destruct (Hm p e) as [H|H].
  - left. destruct (m1 p e) as [[o q] e1]. cbn in H. subst o. reflexivity.
  - destruct (m1 p e) as [[o1 q1] e1], (m2 p e) as [[o2 q2] e2]. unfold relres in H. cbn [fst snd] in H.
    destruct H as (-> & -> & H).
    destruct o1 as [a|x| |], o2 as [a'|y| |]; try contradiction; try (right; repeat split; exact H). apply Hf, H.
Qed.

Lemma lemr_eq {A B} (R : B -> B -> Prop) (m : M E X A) (f1 f2 : A -> M E X B) :
  lemr fe eq m m -> (forall a, lemr fe R (f1 a) (f2 a)) -> lemr fe R (bind m f1) (bind m f2).
Proof. intros Hm Hf. apply lemr_bind with (P := eq); [exact Hm|]. intros a a' <-. apply Hf. Qed.

Lemma lemr_lift {A} (R : A -> A -> Prop) (s1 s2 : A + X) :
  match s1, s2 with inl a, inl a' => R a a' | inr x, inr y => y = fe x | _, _ => False end ->
  lemr fe R (@lift E X A s1) (lift s2).
Proof.
  destruct s1 as [a|x], s2 as [a'|y]; try contradiction; cbn [lift]; [apply lemr_ret|apply lemr_fail].
Qed.

Lemma lemr_local {A} (R : A -> A -> Prop) n (m1 m2 : M E X A) : lemr fe R m1 m2 ->
  lemr fe (fun x y => R (fst x) (fst y) /\ snd y = snd x) (at_local n m1) (at_local n m2).
Proof.
  intros H p e. unfold at_local. destruct (H n e) as [F|F].
  - left. destruct (m1 n e) as [[o q] e1]. cbn in F. subst o. reflexivity.
  - right. destruct (m1 n e) as [[o1 q1] e1], (m2 n e) as [[o2 q2] e2]. unfold relres in F. cbn [fst snd] in F.
    destruct F as (-> & -> & F). destruct o1, o2; try contradiction; repeat split; exact F.
Qed.
End Rules.

Lemma lemr_map_err {E X Y A} (fe : X -> X) (fy : Y -> Y) (R : A -> A -> Prop) (g : X -> Y) (m1 m2 : M E X A) :
  (forall x, g (fe x) = fy (g x)) -> lemr fe R m1 m2 -> lemr fy R (map_err g m1) (map_err g m2).
Proof.
  intros Hg H p e. unfold map_err. destruct (H p e) as [F|F].
  - left. destruct (m1 p e) as [[o q] e1]. cbn in F. subst o. reflexivity.
  - right. destruct (m1 p e) as [[o1 q1] e1], (m2 p e) as [[o2 q2] e2]. unfold relres in F. cbn [fst snd] in F.
    destruct F as (-> & -> & F). destruct o1, o2; try contradiction; repeat split; try exact F. cbn. rewrite F. apply Hg.
Qed.

Lemma lemr_catch {E X Y A} (fe : X -> X) (fy : Y -> Y) (R : A -> A -> Prop) (m1 m2 : M E X A) : lemr fe R m1 m2 ->
  lemr fy (fun r s : A + X => match r, s with inl a, inl a' => R a a' | inr x, inr y => y = fe x | _, _ => False end)
    (@catch E X Y A m1) (catch m2).
Proof.
  intros H p e. unfold catch. destruct (H p e) as [F|F].
  - left. destruct (m1 p e) as [[o q] e1]. cbn in F. subst o. reflexivity.
  - right. destruct (m1 p e) as [[o1 q1] e1], (m2 p e) as [[o2 q2] e2]. unfold relres in F. cbn [fst snd] in F.
    destruct F as (-> & -> & F). destruct o1, o2; try contradiction; repeat split; exact F.
Qed.

Section Number.
Context {E : Type}.
Variable f : N -> N.
Notation fe := (renumber_err f).
Notation fr := (renumber_reg f).

(** *** Reading data *)
Section Leaves.
Variable b : buffer E.

Lemma slice_r p n : lemr fe eq (read_slice b p n) (read_slice b p n).
Proof. intros q e. right. unfold read_slice. destruct (rd b p n e) as [[l|x] e']; repeat split. Qed.

Lemma byte_r p : lemr fe eq (read_byte b p) (read_byte b p).
Proof.
  unfold read_byte. apply lemr_eq; [apply slice_r|]. intros [|x [|y l]]; try apply lemr_panic. apply lemr_ret. reflexivity.
Qed.

Lemma find_loop_r w p k : forall i, lemr fe eq (find_loop w b p k i) (find_loop w b p k i).
Proof.
  induction k as [|k IH]; intros i; cbn [find_loop]; [apply lemr_ret; reflexivity|].
  destruct (Nat.ltb _ _); [apply lemr_ret; reflexivity|]. apply lemr_eq; [apply slice_r|]. intros l.
  destruct (compact_decode w l); [apply lemr_ret; reflexivity|apply IH].
Qed.

Lemma find_compact_r w p : lemr fe eq (find_compact w b p) (find_compact w b p).
Proof.
  unfold find_compact. destruct (Nat.ltb _ _); [apply lemr_fail; reflexivity|]. apply lemr_eq; [apply find_loop_r|].
  intros [c|]; [apply lemr_ret; reflexivity|apply lemr_fail; reflexivity].
Qed.

Lemma get_compact_r w : lemr fe eq (get_compact w b) (get_compact w b).
Proof.
  unfold get_compact. apply lemr_eq; [apply lemr_get|]. intros p. apply lemr_eq; [apply find_compact_r|]. intros x.
  apply lemr_eq; [apply lemr_set|]. intros _. apply lemr_ret. reflexivity.
Qed.

Lemma cut_r {A} n name (g : bytes -> option A) : lemr fe eq (cut_and_decode b n name g) (cut_and_decode b n name g).
Proof.
  unfold cut_and_decode, read_exact, shift_pos. apply lemr_eq; [apply lemr_get|]. intros p. apply lemr_eq.
  - apply lemr_eq; [apply lemr_get|]. intros q. apply lemr_eq; [apply slice_r|]. intros l.
    destruct (_ =? _)%N; [apply lemr_ret; reflexivity|apply lemr_panic].
  - intros l. destruct (g l); [|apply lemr_fail; reflexivity]. apply lemr_eq.
    + apply lemr_eq; [apply lemr_get|]. intros q. apply lemr_set.
    + intros _. apply lemr_ret. reflexivity.
Qed.

Lemma era_r : lemr fe eq (special_case_era b) (special_case_era b).
Proof.
  unfold special_case_era. apply lemr_eq; [apply lemr_get|]. intros p. apply lemr_eq; [apply slice_r|]. intros l.
  destruct (era_decode_all l); [apply lemr_eq; [apply lemr_set|]; intros _; apply lemr_ret; reflexivity|].
  apply lemr_eq; [apply slice_r|]. intros l2.
  destruct (era_decode_all l2); [apply lemr_eq; [apply lemr_set|]; intros _; apply lemr_ret; reflexivity|apply lemr_fail; reflexivity].
Qed.

Lemma str_r h : lemr fe eq (decode_str b h) (decode_str b h).
Proof.
  unfold decode_str. apply lemr_eq; [apply lemr_get|]. intros p. apply lemr_eq; [apply find_compact_r|]. intros [n s].
  apply lemr_eq; [apply slice_r|]. intros l. destruct (utf8_valid l); [|apply lemr_fail; reflexivity].
  apply lemr_eq; [apply lemr_set|]. intros _. apply lemr_ret. reflexivity.
Qed.

Lemma bitvec_r n : lemr fe eq (into_bitvec_decode b n) (into_bitvec_decode b n).
Proof.
  unfold into_bitvec_decode, bitvec_positions. apply lemr_eq; [apply lemr_get|]. intros p. apply lemr_eq.
  - apply lemr_eq; [apply find_compact_r|]. intros [k s]. apply lemr_ret. reflexivity.
  - intros [[x y] k]. apply lemr_eq; [apply slice_r|]. intros l. apply lemr_eq; [apply lemr_set|]. intros _. apply lemr_ret. reflexivity.
Qed.

Lemma pick_r vs p : lemr fe (fun v v' => v' = renumber_variant f v /\ In v vs)
  (pick_variant b vs p) (pick_variant b (map (renumber_variant f) vs) p).
Proof.
  unfold pick_variant. apply lemr_eq; [apply byte_r|]. intros i.
  assert (Hf : find_variant (map (renumber_variant f) vs) i = option_map (renumber_variant f) (find_variant vs i)).
  { unfold find_variant. induction vs as [|v vs IH]; [reflexivity|]. cbn [map find renumber_variant v_index option_map].
    destruct (v_index v =? i)%N; [reflexivity|exact IH]. }
  rewrite Hf. destruct (find_variant vs i) as [v|] eqn:Ev; cbn [option_map]; [|apply lemr_fail; reflexivity].
  apply lemr_ret. split; [reflexivity|]. unfold find_variant in Ev. apply find_some in Ev. apply Ev.
Qed.
End Leaves.

(** *** What is passed down *)
Variable S : N -> Prop.
Variables r1 r2 : registry E.
Hypothesis Hapart : kept_apart f S r1.

(** The checkers at a type [id]: the types being checked lead to [id]. *)
Definition above (id j : N) : Prop := S j /\ clos_refl_trans N (directly r1) j id.
(** The checkers before [id] is entered. *)
Definition before (id j : N) : Prop := S j /\ clos_trans N (directly r1) j id.
Definition rcp (P : N -> Prop) (c c' : checker) : Prop :=
  compact_at c' = option_map f (compact_at c) /\ c_hint c' = c_hint c /\ cycle_check c' = map f (cycle_check c) /\
  Forall P (cycle_check c).
Notation rc id := (rcp (above id)).
Notation ra id := (rcp (before id)).
Definition rp (id : N) (p p' : propagated) : Prop := rc id (checker_of p) (checker_of p') /\ info_of p' = info_of p.

Definition rsum {A} (R : A -> A -> Prop) (s1 s2 : A + int_err) : Prop :=
  match s1, s2 with inl a, inl a' => R a a' | inr x, inr y => y = renumber_int f x | _, _ => False end.

Lemma rc_new P : rcp P checker_new checker_new.
Proof. repeat split. constructor. Qed.

Lemma enter id j c c' : directly r1 id j -> rc id c c' -> ra j c c'.
Proof.
  intros Hd (H1 & H2 & H3 & H4). repeat split; try assumption. eapply Forall_impl; [|exact H4].
  intros k [Hs Hk]. split; [exact Hs|]. exact (clos_rt_t N _ k id j Hk (t_step N _ id j Hd)).
Qed.

Lemma reject_r P c c' : rcp P c c' -> rsum eq (reject_compact c) (reject_compact c').
Proof. intros (H & _). unfold reject_compact. rewrite H. destruct (compact_at c); reflexivity. Qed.

Lemma check_id_r c c' id : ra id c c' -> S id -> rsum (rc id) (check_id c id) (check_id c' (f id)).
Proof.
  intros (H1 & H2 & H3 & H4) Hi. unfold check_id.
  assert (He : existsb (N.eqb (f id)) (cycle_check c') = existsb (N.eqb id) (cycle_check c)).
  { rewrite H3. clear H3. induction H4 as [|j l Hj Hl IH]; [reflexivity|]. cbn [map existsb]. rewrite IH. f_equal.
    destruct (N.eqb_spec id j) as [->|Hn]; [apply N.eqb_refl|]. apply N.eqb_neq. intros Hf. apply Hn. symmetry.
    destruct Hj as [Hs Hj]. apply Hapart; [exact Hs|exact Hj|symmetry; exact Hf]. }
  rewrite He. destruct (existsb _ (cycle_check c)); cbn [rsum]; [reflexivity|]. repeat split; cbn; try assumption.
  - rewrite H3, map_app. reflexivity.
  - apply Forall_app. split; [|constructor; [split; [exact Hi|apply rt_refl]|constructor]]. eapply Forall_impl; [|exact H4].
    intros k [Hs Hk]. split; [exact Hs|]. clear - Hk. induction Hk as [x y H|x y z _ IH1 _ IH2]; [apply rt_step, H|exact (rt_trans _ _ _ _ _ IH1 IH2)].
Qed.

Lemma forget_r P c c' : rcp P c c' -> rcp P (forget_hint c) (forget_hint c').
Proof. intros (H1 & H2 & H3 & H4). unfold forget_hint. rewrite H2. repeat split; assumption. Qed.

Lemma drop_r P Q c c' : rcp P c c' -> rcp Q (drop_cycle_check c) (drop_cycle_check c').
Proof. intros (H1 & H2 & H3 & H4). repeat split; try assumption. constructor. Qed.

Lemma hint_r P c c' h : rcp P c c' -> rcp P (with_hint c h) (with_hint c' h).
Proof. intros (H1 & H2 & H3 & H4). repeat split; assumption. Qed.

Lemma compact_r P c c' id : rcp P c c' -> rcp P (with_compact_at c id) (with_compact_at c' (f id)).
Proof. intros (H1 & H2 & H3 & H4). repeat split; assumption. Qed.

Lemma for_field_r c c' x : ra (f_ty x) c c' -> S (f_ty x) -> rsum (rp (f_ty x)) (for_field c x) (for_field c' (renumber_field f x)).
Proof.
  intros H Hs. unfold for_field, update_for_field. pose proof H as (_ & Hh & _). rewrite Hh. cbn [renumber_field f_ty].
  change (hint_from_field (Field (f_name x) (f (f_ty x)) (f_type_name x) (f_docs x))) with (hint_from_field x).
  assert (K : forall d d', ra (f_ty x) d d' -> rsum (rp (f_ty x)) (match check_id d (f_ty x) with inl c1 => inl (with_checker c1) | inr y => inr y end)
    (match check_id d' (f (f_ty x)) with inl c1 => inl (with_checker c1) | inr y => inr y end)).
  { intros d d' Hd. pose proof (check_id_r d d' (f_ty x) Hd Hs) as K.
    destruct (check_id d (f_ty x)), (check_id d' (f (f_ty x))); try contradiction; cbn [rsum] in *; [split; [exact K|reflexivity]|exact K]. }
  destruct (c_hint c); apply K; try exact H. apply hint_r, H.
Qed.

Lemma for_ty_r c c' t t' id : ra id c c' -> S id -> t_path t' = t_path t -> rsum (rp id) (for_ty c t id) (for_ty c' t' (f id)).
Proof.
  intros H Hs Ht. unfold for_ty, update_for_ty. pose proof (check_id_r c c' id H Hs) as K.
  destruct (check_id c id) as [d|], (check_id c' (f id)) as [d'|]; try contradiction; cbn [rsum] in *; [|exact K].
  split; [|reflexivity]. cbn [with_checker checker_of]. unfold update_from_path. pose proof K as (_ & Hh & _). rewrite Hh, Ht.
  destruct (c_hint d); try exact K. apply hint_r, K.
Qed.

Lemma lift_int_r {A} (R : A -> A -> Prop) s1 s2 : rsum R s1 s2 -> lemr fr R (@lift_int E A s1) (lift_int s2).
Proof.
  intros H. unfold lift_int. apply lemr_map_err with (fe := renumber_int f); [reflexivity|]. apply lemr_lift. exact H.
Qed.

Lemma lift_p_r {A} (R : A -> A -> Prop) s1 s2 : rsum R s1 s2 -> lemr fe R (@lift_p E A s1) (lift_p s2).
Proof.
  intros H. unfold lift_p. apply lemr_map_err with (fe := renumber_int f); [reflexivity|]. apply lemr_lift. exact H.
Qed.

Lemma reject_m_r P c c' : rcp P c c' -> lemr fe eq (@reject_compact_m E c) (reject_compact_m c').
Proof.
  intros H. unfold reject_compact_m. apply lemr_map_err with (fe := renumber_int f); [reflexivity|]. apply lemr_lift.
  exact (reject_r _ _ _ H).
Qed.

Lemma block_r {A} P c c' (m : M E parser_err A) : rcp P c c' -> lemr fe eq m m -> lemr fe eq (block_compact c m) (block_compact c' m).
Proof.
  intros (H & _) Hm. unfold block_compact. rewrite H. destruct (compact_at c); cbn [option_map]; [apply lemr_fail; reflexivity|exact Hm].
Qed.

Lemma primitive_r (b : buffer E) x P c c' : rcp P c c' -> lemr fe eq (decode_primitive b x c) (decode_primitive b x c').
Proof.
  intros H. pose proof H as (Hc & Hh & _).
  destruct x; cbn [decode_primitive]; try (eapply block_r; [exact H|]; apply lemr_eq; [apply cut_r|]; intros; apply lemr_ret; reflexivity).
  - apply lemr_bind with (P := eq); [eapply reject_m_r, H|]. intros _ _ _. rewrite Hh. apply str_r.
  - unfold parse_uint. rewrite Hc, Hh. destruct (compact_at c); cbn [option_map];
      (apply lemr_eq; [apply get_compact_r || apply cut_r|]; intros; apply lemr_ret; reflexivity).
Qed.

Lemma per_r (b : buffer E) k P c c' : rcp P c c' -> lemr fe eq (parse_per b k c) (parse_per b k c').
Proof.
  intros (Hc & _). unfold parse_per. rewrite Hc. destruct (compact_at c); cbn [option_map]; (apply lemr_eq; [|intros; apply lemr_ret; reflexivity]).
  - apply lemr_eq; [apply get_compact_r|]. intros; apply lemr_ret; reflexivity.
  - apply cut_r.
Qed.

(** *** Types *)
Hypothesis Hclosed : closed r1 S.
Hypothesis Hren : renumbers f S r1 r2.
Hypothesis Hbound : (reg_bound r1 <= reg_bound r2)%nat.

Definition rt (id : N) (t t' : ty) : Prop := renumbered f t t' /\ okt S t /\ forall j, In j (direct t) -> directly r1 id j.
Definition rh (h h' : husked) : Prop :=
  hu_info h' = hu_info h /\ rc (hu_id h) (hu_checker h) (hu_checker h') /\ rt (hu_id h) (hu_ty h) (hu_ty h') /\ hu_id h' = f (hu_id h) /\ S (hu_id h).
Definition ri (id : N) (i i' : ty_input) : Prop :=
  match i, i' with
  | Resolved t i1, Resolved t' i2 => rt id t t' /\ i1 = id /\ i2 = f id
  | Symbol i1, Symbol i2 => i1 = id /\ i2 = f id /\ S id
  | _, _ => False
  end.

Lemma plain_def t : (hinted_from_type t = HtNone \/ hinted_from_type t = HtUncheckedExtrinsic \/
  hinted_from_type t = HtMultiSignature \/ exists i, hinted_from_type t = HtPalletSpecific i) -> def_of t = Some (t_def t).
Proof.
  rewrite hinted_classify. unfold hinted_of, def_of. destruct (classify t); try reflexivity;
    intros [H|[H|[H|[i H]]]]; discriminate H.
Qed.

Lemma plain_needs t : def_of t = Some (t_def t) -> needs t = mentions (t_def t).
Proof. intros H. unfold needs. rewrite H. reflexivity. Qed.

Lemma hinted_r t t' : renumbered f t t' -> hinted_from_type t' = hinted_from_type t.
Proof. intros (H & _). unfold hinted_from_type. rewrite H. reflexivity. Qed.

Lemma info_r t t' : renumbered f t t' -> info_from_ty t' = info_from_ty t.
Proof. intros (H1 & H2 & _). unfold info_from_ty. rewrite H1, H2. reflexivity. Qed.

Lemma resolve_r id : S id -> lemr fr (rt id) (resolve_ty r1 id) (resolve_ty r2 (f id)).
Proof.
  intros H p e. right. unfold resolve_ty. pose proof (Hren id e H) as K.
  destruct (resolve r1 id e) as [[t|x] e'] eqn:Er.
  - destruct K as (t' & -> & K). repeat split; try apply K; [exact (Hclosed _ _ _ _ H Er)|].
    intros j Hj. exists e, t, e'. split; assumption.
  - rewrite K. repeat split.
Qed.

Lemma husk_loop_r f1 : forall f2 t t' id c c' acc, (f1 <= f2)%nat -> rt id t t' -> S id -> rc id c c' ->
  lemr fr rh (husk_loop r1 f1 t id c acc) (husk_loop r2 f2 t' (f id) c' acc).
Proof.
  induction f1 as [|f1 IH]; intros f2 t t' id c c' acc Hf (Hr & Ht & Hdir) Hid Hc; [intros p e; left; reflexivity|].
  destruct f2 as [|f2]; [lia|]. cbn [husk_loop]. rewrite (info_r _ _ Hr), (hinted_r _ _ Hr).
  remember (if info_is_empty (info_from_ty t) then acc else acc ++ [info_from_ty t]) as acc1.
  assert (Hret : lemr fr rh (@ret E reg_err _ (Husked acc1 c t id)) (ret (Husked acc1 c' t' (f id)))).
  { apply lemr_ret. split; [reflexivity|]. split; [exact Hc|]. split; [repeat split; try apply Hr; assumption|]. split; [reflexivity|exact Hid]. }
  destruct (hinted_from_type t) eqn:Hh; try exact Hret.
  assert (Ed : def_of t = Some (t_def t)) by (apply plain_def; auto).
  pose proof (plain_needs t Ed) as En. unfold direct in Hdir. rewrite Ed in Hdir.
  destruct Hr as (Hr1 & Hr2 & Hrd). rewrite Hrd.
  destruct (t_def t) as [fs| | | | | |inner|] eqn:Hd; cbn [renumber_def]; try exact Hret.
  - destruct fs as [|g [|g' fs]]; cbn [map]; try exact Hret.
    assert (Hs : S (f_ty g)) by (apply (okt_in S t _ Ht); rewrite En; left; reflexivity).
    assert (Hg : directly r1 id (f_ty g)) by (apply Hdir; left; reflexivity).
    eapply lemr_bind; [apply lift_int_r, check_id_r; [exact (enter _ _ _ _ Hg Hc)|exact Hs]|]. intros c1 c1' Hc1.
    eapply lemr_bind; [apply resolve_r, Hs|]. intros t1 t1' Ht1. cbv zeta. apply IH; [lia|exact Ht1|exact Hs|].
    pose proof Hc1 as (_ & Hh1 & _). rewrite Hh1.
    change (hint_from_field (renumber_field f g)) with (hint_from_field g).
    destruct (c_hint c1); try exact Hc1. apply hint_r, Hc1.
  - assert (Hs : S inner) by (apply (okt_in S t _ Ht); rewrite En; left; reflexivity).
    assert (Hg : directly r1 id inner) by (apply Hdir; left; reflexivity).
    eapply lemr_bind; [eapply lift_int_r, reject_r, Hc|]. intros _ _ _.
    eapply lemr_bind; [apply lift_int_r, check_id_r; [apply compact_r, (enter _ _ _ _ Hg Hc)|exact Hs]|]. intros c1 c1' Hc1.
    eapply lemr_bind; [apply resolve_r, Hs|]. intros t1 t1' Ht1. apply IH; [lia|exact Ht1|exact Hs|exact Hc1].
Qed.

Lemma husk_r id c c' : ra id c c' -> S id -> lemr fr rh (husk_type r1 id c) (husk_type r2 (f id) c').
Proof.
  intros Hc H. unfold husk_type. eapply lemr_bind; [apply lift_int_r, check_id_r; [exact Hc|exact H]|].
  intros c1 c1' Hc1. eapply lemr_bind; [apply resolve_r, H|]. intros t t' Ht. cbv zeta. apply husk_loop_r; [|exact Ht|exact H|].
  - unfold husk_fuel. lia.
  - destruct Hc1 as (_ & _ & H3 & H4). repeat split; [exact H3|exact H4].
Qed.

Lemma signature_r x : S (f_ty x) -> lemr fe eq (signature_from_field r1 x) (signature_from_field r2 (renumber_field f x)).
Proof.
  intros H. unfold signature_from_field. cbn [renumber_field f_ty f_type_name].
  eapply lemr_bind; [apply lemr_catch with (fe := fr), husk_r; [apply rc_new|exact H]|].
  intros [hu|x1] [hu'|x2] Hh; try contradiction; [|apply lemr_ret; reflexivity].
  destruct Hh as (_ & _ & ((_ & _ & Hrd) & Ht & _) & _). rewrite Hrd.
  destruct (t_def (hu_ty hu)) as [| | |len el| | | |] eqn:Hd; cbn [renumber_def]; try (apply lemr_ret; reflexivity).
  eapply lemr_bind; [apply lemr_catch with (fe := fr), resolve_r; apply (okt_in S _ _ Ht), (needs_array _ _ _ Hd)|].
  intros [t|x1] [t'|x2] Hh; try contradiction; [|apply lemr_ret; reflexivity].
  destruct Hh as ((_ & _ & Hrd') & _). rewrite Hrd'. destruct (t_def t) as [| | | | |[| | |[]| | |]| |]; cbn [renumber_def]; try (apply lemr_ret; reflexivity).
  destruct (f_type_name x) as [n|]; [|apply lemr_ret; reflexivity].
  destruct (str_in n SIGNATURE_ECDSA_ID_SET); [apply lemr_ret; reflexivity|].
  destruct (str_in n SIGNATURE_ED25519_ID_SET); [apply lemr_ret; reflexivity|].
  destruct (str_in n SIGNATURE_SR25519_ID_SET); apply lemr_ret; reflexivity.
Qed.

Definition rk (t : ty) (k k' : checked) : Prop :=
  match k with
  | CNone => k' = CNone /\ def_of t = Some (t_def t)
  | CPalletSpecific n i vs it => k' = CPalletSpecific n i (map (renumber_variant f) vs) it /\ okvs S vs
  | _ => k' = k
  end.

Lemma checked_r b id t t' : rt id t t' -> lemr fe (rk t) (checked_from_type b r1 t) (checked_from_type b r2 t').
Proof.
  intros (Hr & Ht & _). unfold checked_from_type. rewrite (hinted_r _ _ Hr).
  destruct (hinted_from_type t) eqn:Hh; try (apply lemr_ret; reflexivity).
  - apply lemr_ret. split; [reflexivity|]. apply plain_def. auto.
  - assert (Ed : def_of t = Some (t_def t)) by (apply plain_def; auto). pose proof (plain_needs t Ed) as En.
    assert (N : lemr fe (rk t) (@ret E parser_err _ CNone) (ret CNone)) by (apply lemr_ret; split; [reflexivity|exact Ed]).
    destruct Hr as (_ & _ & Hrd). rewrite Hrd.
    destruct (t_def t) as [|vs| | | | | |] eqn:Hd; cbn [renumber_def]; try exact N. rewrite <- Hd in En.
    pose proof (okt_variants S t vs Ht En Hd) as Hv.
    apply lemr_eq; [apply lemr_get|]. intros p. eapply lemr_bind; [apply lemr_catch with (fe := fe), pick_r|].
    intros [v|x1] [v'|x2] Hp; try contradiction; [|exact N]. destruct Hp as [-> Hp]. cbn [renumber_variant v_fields].
    destruct (v_fields v) as [|g [|g' fs]] eqn:Ef; cbn [map]; try exact N.
    assert (Hs : S (f_ty g)) by (apply (Hv v g Hp); rewrite ?Ef; left; reflexivity).
    eapply lemr_bind; [apply signature_r, Hs|].
    intros s s' <-. destruct s; try exact N; (apply lemr_eq; [apply lemr_set|]; intros _; apply lemr_ret; reflexivity).
  - assert (Ed : def_of t = Some (t_def t)) by (apply plain_def; eauto). pose proof (plain_needs t Ed) as En.
    assert (N : lemr fe (rk t) (@ret E parser_err _ CNone) (ret CNone)) by (apply lemr_ret; split; [reflexivity|exact Ed]).
    destruct Hr as (_ & _ & Hrd). rewrite Hrd.
    destruct (t_def t) as [|vs| | | | | |] eqn:Hd; cbn [renumber_def]; try exact N. rewrite <- Hd in En.
    pose proof (okt_variants S t vs Ht En Hd) as Hv.
    apply lemr_eq; [apply lemr_get|]. intros p. eapply lemr_bind; [apply lemr_catch with (fe := fe), pick_r|].
    intros [v|x1] [v'|x2] Hp; try contradiction; [|exact N]. destruct Hp as [-> Hp]. cbn [renumber_variant v_fields v_name].
    destruct (v_fields v) as [|g [|g' fs]] eqn:Ef; cbn [map]; try exact N.
    assert (Hs : S (f_ty g)) by (apply (Hv v g Hp); rewrite ?Ef; left; reflexivity).
    eapply lemr_bind; [apply lemr_catch with (fe := fr), resolve_r, Hs|].
    intros [vt|x1] [vt'|x2] Hvt; try contradiction; [|exact N]. destruct Hvt as (Hr2 & Hvt & _).
    rewrite (hinted_r _ _ Hr2), (info_r _ _ Hr2).
    destruct (hinted_from_type vt) eqn:Hh2; try exact N. destruct (pitem_eqb _ _); [|exact N].
    destruct Hr2 as (_ & _ & Hrd2). rewrite Hrd2.
    destruct (t_def vt) as [|vs2| | | | | |] eqn:Hd2; cbn [renumber_def]; try exact N.
    apply lemr_eq; [apply lemr_set|]. intros _. apply lemr_ret. cbn [rk]. split; [reflexivity|].
    apply (okt_variants S vt vs2 Hvt); [apply needs_plain; eauto|exact Hd2].
  - apply lemr_ret. split; [reflexivity|]. apply plain_def. auto.
Qed.

Section Body.
Variable b : buffer E.
Variable d1 d2 : ty_input -> propagated -> M E parser_err (ext pdata).
Hypothesis Hd : forall id i i' p p', ri id i i' -> rp id p p' -> lemr fe eq (d1 i p) (d2 i' p').

Lemma fields_loop_r id fs c c' : rc id c c' -> (forall x, In x fs -> S (f_ty x)) ->
  (forall x, In x fs -> cycle_check c = [] \/ directly r1 id (f_ty x)) ->
  lemr fe eq (fields_loop d1 fs c) (fields_loop d2 (map (renumber_field f) fs) c').
Proof.
  intros Hc. induction fs as [|x fs IH]; intros H G; cbn [fields_loop map]; [apply lemr_ret; reflexivity|].
  assert (Hs : S (f_ty x)) by (apply H; left; reflexivity).
  assert (Ha : ra (f_ty x) c c').
  { destruct (G x (or_introl eq_refl)) as [G1|G1]; [|exact (enter _ _ _ _ G1 Hc)].
    destruct Hc as (H1 & H2 & H3 & H4). repeat split; try assumption. rewrite G1. constructor. }
  eapply lemr_bind; [apply lift_p_r, for_field_r; [exact Ha|exact Hs]|]. intros p p' Hp.
  eapply lemr_bind; [apply (Hd (f_ty x)); [repeat split; exact Hs|exact Hp]|]. intros d d' <-.
  eapply lemr_bind; [apply IH; intros g Hg; [apply H|apply G]; right; exact Hg|]. intros l l' <-. apply lemr_ret. reflexivity.
Qed.

Lemma decode_fields_r id fs c c' : rc id c c' -> (forall x, In x fs -> S (f_ty x)) ->
  (forall x, In x fs -> cycle_check c = [] \/ directly r1 id (f_ty x)) ->
  lemr fe eq (decode_fields d1 fs c) (decode_fields d2 (map (renumber_field f) fs) c').
Proof.
  intros Hc H G. unfold decode_fields. destruct fs as [|x1 [|x2 fs]]; cbn [map];
    try (exact (fields_loop_r _ _ _ _ Hc H G)).
  eapply lemr_bind; [eapply reject_m_r, Hc|]. intros _ _ _. refine (fields_loop_r _ _ _ _ (forget_r _ _ _ Hc) H _).
  unfold forget_hint. destruct (c_hint c); exact G.
Qed.

Lemma tuple_loop_r id ids c c' : rc id c c' -> Forall S ids -> Forall (directly r1 id) ids ->
  lemr fe eq (tuple_loop r1 d1 ids c) (tuple_loop r2 d2 (map f ids) c').
Proof.
  intros Hc. induction 1 as [|i ids Hi _ IH]; intros G; cbn [tuple_loop map]; [apply lemr_ret; reflexivity|].
  inversion G as [|x y G1 G2]; subst.
  eapply lemr_bind; [apply lemr_map_err with (fe := fr); [reflexivity|]; apply resolve_r, Hi|]. intros t t' Ht.
  eapply lemr_bind; [apply lift_p_r, for_ty_r; [exact (enter _ _ _ _ G1 Hc)|exact Hi|apply Ht]|]. intros p p' Hp.
  eapply lemr_bind; [apply (Hd i); [repeat split; apply Ht|exact Hp]|]. intros d d' <-.
  eapply lemr_bind; [exact (IH G2)|]. intros l l' <-. apply lemr_ret. reflexivity.
Qed.

Lemma elements_loop_r n hu hu' : rh hu hu' -> lemr fe eq (elements_loop d1 n hu) (elements_loop d2 n hu').
Proof.
  intros (H1 & H2 & H3 & H4 & H5). induction n as [|n IH]; cbn [elements_loop]; [apply lemr_ret; reflexivity|].
  eapply lemr_bind; [apply (Hd (hu_id hu)); [split; [exact H3|split; [reflexivity|exact H4]]|split; [exact H2|reflexivity]]|]. intros d d' <-.
  eapply lemr_bind; [exact IH|]. intros l l' <-. apply lemr_ret. reflexivity.
Qed.

Lemma elements_r el n p p' : ra el (checker_of p) (checker_of p') -> info_of p' = info_of p -> S el ->
  lemr fe eq (decode_elements_set r1 d1 el n p) (decode_elements_set r2 d2 (f el) n p').
Proof.
  intros Hc Hi H. unfold decode_elements_set. rewrite Hi. eapply lemr_bind; [eapply reject_m_r, Hc|]. intros _ _ _.
  eapply lemr_bind; [apply lemr_map_err with (fe := fr); [reflexivity|]; apply husk_r; [exact Hc|exact H]|]. intros hu hu' Hh.
  pose proof Hh as (Hh1 & _). rewrite Hh1. destruct (n =? 0)%N; [apply lemr_ret; reflexivity|].
  eapply lemr_bind; [apply elements_loop_r, Hh|]. intros l l' <-. apply lemr_ret. reflexivity.
Qed.

Lemma decode_variant_r vs : okvs S vs -> lemr fe eq (decode_variant b d1 vs) (decode_variant b d2 (map (renumber_variant f) vs)).
Proof.
  intros H. unfold decode_variant. apply lemr_eq; [apply lemr_get|]. intros p.
  eapply lemr_bind; [apply pick_r|]. intros v v' [-> Hv]. apply lemr_eq; [apply lemr_set|]. intros _.
  eapply lemr_bind; [apply (decode_fields_r 0%N); [apply rc_new|intros x Hx; exact (H v x Hv Hx)|intros; left; reflexivity]|]. intros l l' <-.
  apply lemr_ret. reflexivity.
Qed.

Lemma bits_r store order id : S store -> S order ->
  lemr fe eq (decode_bit_sequence b r1 store order id) (decode_bit_sequence b r2 (f store) (f order) (f id)).
Proof.
  intros Hs Ho. unfold decode_bit_sequence. apply lemr_eq; [apply lemr_get|]. intros p.
  eapply lemr_bind; [apply lemr_map_err with (fe := fr) (R := eq); [reflexivity|]|].
  - unfold find_bit_order_ty. eapply lemr_bind; [apply resolve_r, Ho|]. intros t t' ((H1 & _ & H3) & _). rewrite H1, H3.
    destruct (t_def t); cbn [renumber_def]; try (apply lemr_fail; reflexivity).
    destruct (path_ident (t_path t)) as [x|]; [|apply lemr_fail; reflexivity].
    destruct (String.eqb x "Lsb0"); [apply lemr_ret; reflexivity|].
    destruct (String.eqb x "Msb0"); [apply lemr_ret; reflexivity|apply lemr_fail; reflexivity].
  - intros o o' <-. eapply lemr_bind; [apply lemr_map_err with (fe := fr); [reflexivity|]; apply resolve_r, Hs|].
    intros t t' ((_ & _ & H3) & _). rewrite H3.
    destruct (t_def t) as [| | | | |[| | |w| | |]| |]; cbn [renumber_def]; try (apply lemr_fail; reflexivity).
    destruct w; try (apply lemr_fail; reflexivity); (apply lemr_eq; [apply bitvec_r|]; intros l;
      destruct (bitvec_decode_all _ _ _); [apply lemr_ret; reflexivity|apply lemr_fail; reflexivity]).
Qed.

Lemma plain_r t t' id p p' : rt id t t' -> def_of t = Some (t_def t) -> rp id p p' ->
  lemr fe eq (decode_plain b r1 d1 t id p) (decode_plain b r2 d2 t' (f id) p').
Proof.
  intros ((_ & _ & Hrd) & Ht & G) Ed Hp. pose proof Hp as [Hc Hi]. unfold okt in Ht. rewrite (plain_needs t Ed) in Ht.
  unfold direct in G. rewrite Ed in G. unfold decode_plain. rewrite Hrd, ?Hi.
  destruct (t_def t) as [fs|vs|el|len el|els|x|inner|s o]; cbn [mentions renumber_def] in *.
  - eapply lemr_bind; [apply (decode_fields_r id); [exact Hc| |]|intros l l' <-; apply lemr_ret; reflexivity].
    + intros g Hg. rewrite Forall_map, Forall_forall in Ht. auto.
    + intros g Hg. right. apply G, in_map, Hg.
  - eapply lemr_bind; [eapply reject_m_r, Hc|]. intros _ _ _. destruct vs as [|v vs]; [apply lemr_ret; reflexivity|].
    cbn [map]. eapply lemr_bind; [apply (decode_variant_r (v :: vs))|intros l l' <-; apply lemr_ret; reflexivity]. intros w g Hw Hg.
    rewrite Forall_forall in Ht. apply Ht. apply in_flat_map. exists w. split; [exact Hw|apply in_map, Hg].
  - apply lemr_eq; [apply get_compact_r|]. intros n. apply elements_r; [eapply drop_r, Hc|reflexivity|inversion Ht; assumption].
  - apply elements_r; [refine (enter _ _ _ _ _ Hc); apply G; left; reflexivity|exact Hi|inversion Ht; assumption].
  - apply Forall_forall in G. destruct els as [|i1 [|i2 ids]]; cbn [map].
    + eapply lemr_bind; [apply (tuple_loop_r id [] _ _ Hc Ht G)|]. intros l l' <-. apply lemr_ret. reflexivity.
    + eapply lemr_bind; [apply (tuple_loop_r id [i1] _ _ Hc Ht G)|]. intros l l' <-. apply lemr_ret. reflexivity.
    + eapply lemr_bind; [eapply reject_m_r, Hc|]. intros _ _ _.
      eapply lemr_bind; [apply (tuple_loop_r id (i1 :: i2 :: ids) _ _ (forget_r _ _ _ Hc) Ht G)|]. intros l l' <-. apply lemr_ret. reflexivity.
  - eapply lemr_bind; [eapply primitive_r, Hc|]. intros l l' <-. apply lemr_ret. reflexivity.
  - inversion Ht as [|y l Hs _]; subst. eapply lemr_bind; [eapply reject_m_r, Hc|]. intros _ _ _.
    assert (G1 : directly r1 id inner) by (apply G; left; reflexivity).
    eapply lemr_bind; [apply lift_p_r, check_id_r; [apply compact_r, (enter _ _ _ _ G1 Hc)|exact Hs]|]. intros c c' Hc'.
    apply (Hd inner); [repeat split; exact Hs|split; [exact Hc'|reflexivity]].
  - inversion Ht as [|y l Hs Hl]; subst. inversion Hl as [|y l Ho _]; subst.
    eapply lemr_bind; [eapply reject_m_r, Hc|]. intros _ _ _.
    eapply lemr_bind; [apply bits_r; assumption|]. intros l l' <-. apply lemr_ret. reflexivity.
Qed.

Lemma body_r id i i' p p' : ri id i i' -> rp id p p' -> lemr fe eq (decode_body b r1 d1 i p) (decode_body b r2 d2 i' p').
Proof.
  intros Hi Hp. unfold decode_body. eapply lemr_bind with (P := fun ti ti' => rt id (fst ti) (fst ti') /\ snd ti = id /\ snd ti' = f id).
  - destruct i as [t i1|i1], i' as [t' i2|i2]; cbn [ri] in Hi; try contradiction; [apply lemr_ret; exact Hi|].
    destruct Hi as (-> & -> & Hi).
    eapply lemr_bind; [apply lemr_map_err with (fe := fr); [reflexivity|]; apply resolve_r, Hi|]. intros t t' Ht. apply lemr_ret.
    split; [exact Ht|split; reflexivity].
  - intros [t i1] [t' i2] (Ht & H1 & H2). cbn [fst snd] in Ht, H1, H2. subst i1 i2. pose proof Ht as (Hr & _). rewrite (info_r _ _ Hr).
    assert (Hp1 : rp id (add_info p (info_from_ty t)) (add_info p' (info_from_ty t))).
    { unfold add_info. destruct (info_is_empty _); [exact Hp|]. destruct Hp as [H1 H2]. split; [exact H1|]. cbn [info_of]. rewrite H2. reflexivity. }
    pose proof Hp1 as [Hc1 Hi1]. cbv zeta.
    eapply lemr_bind; [eapply checked_r, Ht|].
    intros k k' Hk. destruct k; cbn [rk] in Hk.
    + destruct Hk as [-> Hk]. cbn [decode_checked]. apply plain_r; assumption.
    + subst k'. cbn [decode_checked]. rewrite Hi1. eapply lemr_bind; [eapply block_r; [exact Hc1|]|intros l l' <-; apply lemr_ret; reflexivity].
      apply lemr_eq; [apply cut_r|]. intros; apply lemr_ret; reflexivity.
    + subst k'. cbn [decode_checked]. rewrite Hi1. eapply lemr_bind; [eapply reject_m_r, Hc1|]. intros _ _ _.
      apply lemr_eq; [apply era_r|]. intros; apply lemr_ret; reflexivity.
    + subst k'. cbn [decode_checked]. rewrite Hi1. pose proof Hc1 as (_ & Hh & _). rewrite Hh.
      eapply lemr_bind; [eapply reject_m_r, Hc1|]. intros _ _ _. unfold special_case_h256.
      apply lemr_eq; [|intros; apply lemr_ret; reflexivity]. apply lemr_eq; [apply cut_r|]. intros; apply lemr_ret; reflexivity.
    + destruct Hk as [-> Hk]. cbn [decode_checked]. rewrite Hi1. eapply lemr_bind; [eapply reject_m_r, Hc1|]. intros _ _ _.
      eapply lemr_bind; [apply decode_variant_r, Hk|]. intros v v' <-. apply lemr_ret. reflexivity.
    + subst k'. cbn [decode_checked]. rewrite Hi1. eapply lemr_bind; [eapply per_r, Hc1|]. intros l l' <-. apply lemr_ret. reflexivity.
Qed.
End Body.

Lemma decode_r b f1 : forall f2 id i i' p p', (f1 <= f2)%nat -> ri id i i' -> rp id p p' ->
  lemr fe eq (decode b r1 f1 i p) (decode b r2 f2 i' p').
Proof.
  induction f1 as [|f1 IH]; intros f2 id i i' p p' H Hi Hp; [intros q e; left; reflexivity|].
  destruct f2 as [|f2]; [lia|]. cbn [decode]. apply (body_r _ _ _) with (id := id); [|exact Hi|exact Hp].
  intros k j j' q q' Hj Hq. apply (IH f2 k); [lia|exact Hj|exact Hq].
Qed.

Lemma with_type_r b id p pos e : good_buffer b -> good_registry r1 -> S id -> cycle_check (checker_of p) = [] ->
  compact_at (checker_of p) = None ->
  relres fe eq (decode_with_type b r1 (Symbol id) p pos e) (decode_with_type b r2 (Symbol (f id)) p pos e).
Proof.
  intros Hb Hr Hid Hc Hn. pose proof (decode_type_runs b r1 Hb Hr id p pos e Hc) as Hrun. unfold decode_with_type in *.
  destruct (decode_r b (decode_fuel b r1) (decode_fuel b r2) id (Symbol id) (Symbol (f id)) p p) with (p := pos) (e := e) as [F|F];
    [| | | |exact F].
  - unfold decode_fuel. apply le_n_S. apply Nat.mul_le_mono_l. lia.
  - repeat split; exact Hid.
  - split; [|reflexivity]. unfold rcp. rewrite Hc, Hn. repeat split. constructor.
  - exfalso. destruct (decode b r1 (decode_fuel b r1) (Symbol id) p pos e) as [[o q] e1]. cbn [fst] in F. subst o. exact Hrun.
Qed.
End Number.
