(** Two runs over the same content, the first one over memory that may fail at any moment
    (C42). *)
From Coq Require Import FinFun.
From Coq Require Import Lia ZifyBool ZifyNat ZifyN.
From Verif Require Import Base Compact Types Indicators Decode Sign Spec SpecWf ProofBase ProofTables ProofPeel ProofSpec SpecSource
  ProofSafe ProofSafe2 ProofFuel SpecTrack ProofTrack ProofIso SpecTransient Api.
Local Open Scope list_scope.

Section Two.
Context {E1 : Type}.
Variable b1 : buffer E1.
Variable r1 : registry E1.
Variable data : bytes.
Variable types : list ty.
Local Notation b2 := (@slice_buffer unit data).
Local Notation r2 := (@portable unit types).
Hypothesis Hb : flaky_copy b1 data.
Hypothesis Hr : flaky_registry r1 types.

Lemma fl_len : total_len b2 = (total_len b1 + 0)%nat.
Proof. destruct Hb as [H _]. cbn [total_len slice_buffer]. lia. Qed.

Lemma fl_rd p n e1 e2 : (0 <= p)%nat ->
  match fst (rd b1 p n e1) with
  | inl l => fst (rd b2 (p + 0) n e2) = inl l
  | inr x => (True /\ exists c, x = BExternal c) \/ fst (rd b2 (p + 0) n e2) = inr (shift_buf 0 x)
  end.
Proof.
  intros _. rewrite Nat.add_0_r. destruct e2, Hb as [_ H]. destruct (H p n e1) as [-> |(c & ->)].
  - destruct (fst (rd b2 p n tt)); [reflexivity|right]. rewrite shift_buf_0. reflexivity.
  - left. eauto.
Qed.

Lemma fl_res id e :
  match fst (resolve r1 id e) with
  | inl t => lookup types id = Some t
  | inr x => (True /\ exists c, x = RExternal c) \/ lookup types id = None /\ x = RInternal (TypeNotResolved id)
  end.
Proof.
  destruct Hr as [_ H]. destruct (H id e) as [-> |(c & ->)].
  - cbn [resolve portable]. unfold portable_resolve. destruct (lookup types id); cbn [fst]; auto.
  - left. eauto.
Qed.

Definition fl_bound : reg_bound r1 = List.length types := proj1 Hr.

Section Errors.
(** In a lenient comparison the second run may fail differently, or go on with a tainted
    result. *)
Variable lenient : Prop.

Definition simp {A B} (R : A -> B -> Prop) (T : B -> Prop) (x1 : outcome parser_err A * nat * E1) (x2 : outcome parser_err B * nat * unit) : Prop :=
  let '(o1, q1, _) := x1 in
  let '(o2, q2, _) := x2 in
  match o1 with
  | Ok a => exists b, o2 = Ok b /\ R a b /\ q2 = q1
  | Err x => pext x \/ match o2 with Ok b => lenient /\ T b | Err y => lenient \/ x = y | _ => lenient end
  | _ => True
  end.

Definition sim {A B} (R : A -> B -> Prop) (T : B -> Prop) (m1 : M E1 parser_err A) (m2 : M unit parser_err B) : Prop :=
  forall p e, simp R T (m1 p e) (m2 p tt).
Definition clean {B} : B -> Prop := fun _ => False.
Definition keeps {B} (T : B -> Prop) (m : M unit parser_err B) : Prop :=
  forall p, match m p tt with (Ok b, _, _) => T b | _ => True end.

Lemma of_trk {A B} (R : A -> B -> Prop) m1 m2 : trk 0 0 True pext (shift_err 0) R m1 m2 -> sim R clean m1 m2.
Proof.
  intros H p e. specialize (H p e tt (Nat.le_0_l _)). rewrite Nat.add_0_r in H. unfold tracked, bad, simp in *.
  destruct (m1 p e) as [[o1 q1] e1]. destruct (m2 p tt) as [[o2 q2] e2].
  destruct H as [(_ & [-> |(x & -> & Hx)])|H]; auto.
  destruct o1, o2; try contradiction; auto.
  - destruct H as (H & -> & _). rewrite Nat.add_0_r. eauto.
  - subst. rewrite shift_err_0. auto.
Qed.

Lemma sim_bind {A B C D} (R : A -> B -> Prop) TR (Q : C -> D -> Prop) TQ m1 m2 f1 f2 :
  sim R TR m1 m2 -> (forall a b, R a b -> sim Q TQ (f1 a) (f2 b)) -> (forall b, TR b -> keeps TQ (f2 b)) ->
  sim Q TQ (bind m1 f1) (bind m2 f2).
Proof.
  intros Hm Hf Hk p e. specialize (Hm p e). unfold bind, simp in *.
  destruct (m1 p e) as [[o1 q1] e1]. destruct (m2 p tt) as [[o2 q2] []].
  destruct o1 as [a|x| |].
  - destruct Hm as (b & -> & HR & ->). apply (Hf _ _ HR).
  - destruct Hm as [Hm|Hm].
    + destruct o2 as [b|y| |]; auto. destruct (f2 b q2 tt) as [[? ?] ?]. auto.
    + destruct o2 as [b|y| |]; auto. destruct Hm as [Hl Hm]. specialize (Hk b Hm q2).
      destruct (f2 b q2 tt) as [[[d|y| |] ?] ?]; auto.
  - destruct o2 as [b|y| |]; auto. destruct (f2 b q2 tt) as [[? ?] ?]. auto.
  - destruct o2 as [b|y| |]; auto. destruct (f2 b q2 tt) as [[? ?] ?]. auto.
Qed.

Lemma sim_bind0 {A B C D} (R : A -> B -> Prop) (Q : C -> D -> Prop) TQ m1 m2 f1 f2 :
  sim R clean m1 m2 -> (forall a b, R a b -> sim Q TQ (f1 a) (f2 b)) -> sim Q TQ (bind m1 f1) (bind m2 f2).
Proof. intros Hm Hf. eapply sim_bind; [exact Hm|exact Hf|]. intros b []. Qed.

Lemma sim_ret {A B} (R : A -> B -> Prop) T a b : R a b -> sim R T (ret a) (ret b).
Proof. intros H p e. cbn. eauto. Qed.

Lemma keeps_ret {A} (T : A -> Prop) a : T a -> keeps T (ret a).
Proof. intros H p. exact H. Qed.

Lemma keeps_bind {A B} (T : B -> Prop) (m : M unit parser_err A) f : (forall a, keeps T (f a)) -> keeps T (bind m f).
Proof. intros H p. unfold bind. destruct (m p tt) as [[[a|x| |] q] []]; auto. apply H. Qed.

Definition sim_reject c : sim eq clean (reject_compact_m c) (reject_compact_m c) := of_trk _ _ _ (trk_reject 0 0 True c).
Definition sim_lift {A} (x : A + int_err) : sim eq clean (lift_p x) (lift_p x) := of_trk _ _ _ (trk_lift_p 0 0 True x).
Lemma sim_resolve id : sim (fun a b => a = b /\ lookup types id = Some a) clean
    (map_err PRegistry (resolve_ty r1 id)) (map_err PRegistry (resolve_ty r2 id)).
Proof. apply of_trk, trk_reg, trk_resolve, fl_res. Qed.

(** *** One level of the decoder *)

Section Step.
Variable G : pdata -> pdata -> Prop.
Definition GX (x y : ext pdata) : Prop := G (x_data x) (x_data y) /\ x_info x = x_info y.
Definition GF (f g : fdata pdata) : Prop :=
  exists n t docs x y, f = FData n t docs x /\ g = FData n t docs y /\ GX x y.
Hypothesis G_refl : forall d, G d d.
Hypothesis G_struct : forall l l', Forall2 GF l l' -> G (DComposite l) (DComposite l').
Hypothesis G_enum : forall n docs l l', Forall2 GF l l' -> G (DVariant (VData n docs l)) (DVariant (VData n docs l')).
Hypothesis G_tuple : forall l l', Forall2 GX l l' -> G (DTuple l) (DTuple l').
Hypothesis G_vec : forall i l l', Forall2 G l l' ->
  G (match wrap_sequence l with Some s => DSequence i s | None => DSequenceRaw i l end)
    (match wrap_sequence l' with Some s => DSequence i s | None => DSequenceRaw i l' end).
Variable TD : pdata -> Prop.
Definition TX (x : ext pdata) : Prop := TD (x_data x).
Definition TF (f : fdata pdata) : Prop := TX (fd_data f).
Definition TV (v : vdata pdata) : Prop := Exists TF (vd_fields v).
Hypothesis T_struct : forall l, Exists TF l -> TD (DComposite l).
Hypothesis T_enum : forall v, TV v -> TD (DVariant v).
Hypothesis T_tuple : forall l, Exists TX l -> TD (DTuple l).
Hypothesis T_vec : forall i l, Exists TD l ->
  TD (match wrap_sequence l with Some s => DSequence i s | None => DSequenceRaw i l end).
Variable S : N -> Prop.
Hypothesis HS : forall id t j, S id -> lookup types id = Some t -> mentions t j -> S j.

Variable d1 : ty_input -> propagated -> M E1 parser_err (ext pdata).
Variable d2 : ty_input -> propagated -> M unit parser_err (ext pdata).
Definition in_ok (i : ty_input) : Prop :=
  match i with Resolved t id => lookup types id = Some t /\ S id | Symbol id => S id end.
Hypothesis Hd : forall i p, in_ok i -> sim GX TX (d1 i p) (d2 i p).

Lemma GX_ext d d' i : G d d' -> GX (Ext d i) (Ext d' i).
Proof. intros H. split; [exact H|reflexivity]. Qed.

Lemma sim_fields_loop fs c : (forall f, In f fs -> S (f_ty f)) ->
  sim (Forall2 GF) (Exists TF) (fields_loop d1 fs c) (fields_loop d2 fs c).
Proof.
  induction fs as [|f fs IH]; intros Hs; cbn [fields_loop]; [apply sim_ret; constructor|].
  eapply sim_bind0; [apply sim_lift|]. intros p ? <-.
  eapply sim_bind; [apply Hd, (Hs f); left; reflexivity| |].
  2: { intros x Hx. apply keeps_bind. intros tl. apply keeps_ret. left. exact Hx. }
  intros x y Hxy.
  eapply sim_bind; [apply IH; intros g Hg; apply Hs; right; exact Hg| |].
  2: { intros tl Htl. apply keeps_ret. right. exact Htl. }
  intros tl tl' Htl. apply sim_ret. constructor; [|exact Htl]. do 5 eexists. eauto.
Qed.

Lemma sim_fields fs c : (forall f, In f fs -> S (f_ty f)) ->
  sim (Forall2 GF) (Exists TF) (decode_fields d1 fs c) (decode_fields d2 fs c).
Proof.
  intros Hs. unfold decode_fields. destruct fs as [|f [|g fs]]; try (apply sim_fields_loop, Hs).
  eapply sim_bind0; [apply sim_reject|]. intros _ _ _. apply sim_fields_loop, Hs.
Qed.

Definition GV (v w : vdata pdata) : Prop :=
  exists n docs l l', v = VData n docs l /\ w = VData n docs l' /\ Forall2 GF l l'.

Lemma sim_pick vs p : sim eq clean (pick_variant b1 vs p) (pick_variant b2 vs p).
Proof.
  apply of_trk, (trk_pick b1 b2 0 0 True fl_rd). split; lia.
Qed.

Lemma sim_variant vs : (forall v f, In v vs -> In f (v_fields v) -> S (f_ty f)) ->
  sim GV TV (decode_variant b1 d1 vs) (decode_variant b2 d2 vs).
Proof.
  intros Hs. unfold decode_variant. intros p e. unfold bind at 1, get_pos at 1. unfold bind at 4, get_pos at 1.
  revert e. change (forall e, simp GV TV ((do v <- pick_variant b1 vs p;
     set_pos (p + ENUM_INDEX_ENCODED_LEN)%nat ;; do fs <- decode_fields d1 (v_fields v) checker_new;
     ret (VData (v_name v) (collect_docs (v_docs v)) fs)) p e)
    ((do v <- pick_variant b2 vs p;
     set_pos (p + ENUM_INDEX_ENCODED_LEN)%nat ;; do fs <- decode_fields d2 (v_fields v) checker_new;
     ret (VData (v_name v) (collect_docs (v_docs v)) fs)) p tt)).
  intros e. refine (sim_bind0 (fun a b => a = b /\ In a vs) _ _ _ _ _ _ _ _ p e).
  - intros p' e'. pose proof (sim_pick vs p p' e') as H. unfold simp in *.
    destruct (pick_variant b1 vs p p' e') as [[o1 q1] e1] eqn:H1, (pick_variant b2 vs p p' tt) as [[o2 q2] e2].
    destruct o1 as [v|x| |]; auto. destruct H as (b & -> & <- & ->). exists v. split; [reflexivity|split; [split; [reflexivity|]|reflexivity]].
    unfold pick_variant, bind in H1. destruct (read_byte b1 p p' e') as [[[i|x| |] q] e3]; try discriminate H1.
    destruct (find_variant vs i) as [w|] eqn:Hw; [|discriminate H1]. unfold ret in H1. injection H1 as <- _ _. eapply find_some, Hw.
  - intros v ? [<- Hv]. eapply sim_bind0 with (R := eq).
    { intros p' e'. cbn. eauto. }
    intros _ _ _. eapply sim_bind; [apply sim_fields; intros f; apply Hs, Hv| |].
    2: { intros l Hl. apply keeps_ret. exact Hl. }
    intros l l' Hl. apply sim_ret. do 4 eexists. eauto.
Qed.

Lemma sim_elements_loop n hu : lookup types (hu_id hu) = Some (hu_ty hu) -> S (hu_id hu) ->
  sim (Forall2 G) (Exists TD) (elements_loop d1 n hu) (elements_loop d2 n hu).
Proof.
  intros Hl Hs. induction n as [|n IH]; cbn [elements_loop]; [apply sim_ret; constructor|].
  eapply sim_bind; [apply Hd; split; assumption| |].
  2: { intros x Hx. apply keeps_bind. intros tl. apply keeps_ret. left. exact Hx. }
  intros x y [Hxy _]. eapply sim_bind; [apply IH| |].
  2: { intros tl Htl. apply keeps_ret. right. exact Htl. }
  intros tl tl' Htl. apply sim_ret. constructor; assumption.
Qed.

Lemma husk_loop_S fuel : forall t id c acc p hu q e, lookup types id = Some t -> S id ->
  husk_loop r2 fuel t id c acc p tt = (Ok hu, q, e) -> S (hu_id hu).
Proof.
  induction fuel as [|fuel IH]; intros t id c acc p hu q e Hl Hs; cbn [husk_loop]; [discriminate|].
  assert (Hend : forall a, (@ret unit reg_err husked (Husked a c t id)) p tt = (Ok hu, q, e) -> S (hu_id hu)).
  { intros a H. unfold ret in H. injection H as <- _ _. exact Hs. }
  assert (Hnext : forall j c1 a (m : M unit reg_err checker) (k : checker -> checker), mentions t j ->
      (do c0 <- m; do t1 <- resolve_ty r2 j; husk_loop r2 fuel t1 j (k c0) a) p tt = (Ok hu, q, e) -> c1 = c -> S (hu_id hu)).
  { intros j c1 a m k Hm H _. unfold bind in H. destruct (m p tt) as [[[c2|x| |] q2] []]; try discriminate H.
    unfold resolve_ty in H. cbn [resolve portable] in H. unfold portable_resolve in H.
    destruct (lookup types j) as [t1|] eqn:Hj; [|discriminate H]. eapply IH; [exact Hj| |exact H]. eapply HS; eauto. }
  destruct (hinted_from_type t); try apply Hend.
  destruct (t_def t) as [fs| | | | | |inner|] eqn:Hdef; try apply Hend.
  - destruct fs as [|f [|]]; try apply Hend. intros H. eapply (Hnext (f_ty f) c); [|exact H|reflexivity].
    unfold mentions. rewrite Hdef. exists f. split; [left; reflexivity|reflexivity].
  - unfold bind at 1. destruct (lift_int (reject_compact c) p tt) as [[[u|x| |] q2] []] eqn:Hlr; try discriminate.
    assert (q2 = p) as -> by (revert Hlr; unfold lift_int, map_err, lift, ret, fail; destruct (reject_compact c); intros Hlr; congruence).
    intros H. eapply (Hnext inner c _ _ (fun x => x)); [|exact H|reflexivity].
    unfold mentions. rewrite Hdef. reflexivity.
Qed.

Lemma sim_elements el n p : S el -> sim GX TX (decode_elements_set r1 d1 el n p) (decode_elements_set r2 d2 el n p).
Proof.
  intros Hs. unfold decode_elements_set. eapply sim_bind0; [apply sim_reject|]. intros _ _ _.
  eapply sim_bind0 with (R := fun a b => same_husk types a b /\ S (hu_id a)).
  { intros p' e'. pose proof (of_trk _ _ _ (trk_reg 0 0 True _ _ _ (trk_husk r1 types 0 0 True fl_bound fl_res el (checker_of p))) p' e') as H.
    unfold simp in *.
    destruct (map_err PRegistry (husk_type r1 el (checker_of p)) p' e') as [[o1 q1] e1].
    destruct (map_err PRegistry (husk_type r2 el (checker_of p)) p' tt) as [[o2 q2] e2] eqn:H2.
    destruct o1 as [hu|x| |]; auto. destruct H as (hu' & -> & Hh & ->). exists hu'. split; [reflexivity|split; [split; [exact Hh|]|reflexivity]].
    destruct Hh as [<- _]. revert H2. unfold map_err, husk_type, bind, lift_int, map_err, lift.
    destruct (check_id (checker_of p) el) as [c1|]; unfold ret, fail; [|discriminate].
    unfold resolve_ty. cbn [resolve portable]. unfold portable_resolve. destruct (lookup types el) as [t|] eqn:Hl; [|discriminate].
    destruct (husk_loop _ _ _ _ _ _ _ _) as [[[h|x| |] q3] []] eqn:Hk; try discriminate. intros H2. injection H2 as -> _ _.
    eapply husk_loop_S; eauto. }
  intros hu ? [[<- Hl] Hsu].
  destruct (n =? 0)%N; [apply sim_ret, GX_ext, G_refl|].
  eapply sim_bind; [apply sim_elements_loop; assumption| |].
  { intros l l' Hll. apply sim_ret, GX_ext, G_vec, Hll. }
  intros l Hx. apply keeps_ret. exact (T_vec _ _ Hx).
Qed.

Lemma sim_tuple_loop ids c : (forall i, In i ids -> S i) ->
  sim (Forall2 GX) (Exists TX) (tuple_loop r1 d1 ids c) (tuple_loop r2 d2 ids c).
Proof.
  induction ids as [|i ids IH]; intros Hs; cbn [tuple_loop]; [apply sim_ret; constructor|].
  eapply sim_bind0; [apply sim_resolve|]. intros t ? [<- Ht].
  eapply sim_bind0; [apply sim_lift|]. intros p ? <-.
  eapply sim_bind; [apply Hd; split; [assumption|apply Hs; left; reflexivity]| |].
  2: { intros x Hx. apply keeps_bind. intros tl. apply keeps_ret. left. exact Hx. }
  intros x y Hxy. eapply sim_bind; [apply IH; intros j Hj; apply Hs; right; exact Hj| |].
  2: { intros tl Htl. apply keeps_ret. right. exact Htl. }
  intros tl tl' Htl. apply sim_ret. constructor; assumption.
Qed.

Lemma GX_same {A} (f : A -> pdata) i (x y : A) : x = y -> GX (Ext (f x) i) (Ext (f y) i).
Proof. intros <-. apply GX_ext, G_refl. Qed.

Lemma sim_plain t id p : lookup types id = Some t -> S id ->
  sim GX TX (decode_plain b1 r1 d1 t id p) (decode_plain b2 r2 d2 t id p).
Proof.
  intros Hl Hs. pose proof (fun j => HS id t j Hs Hl) as Hm. unfold mentions in Hm. unfold decode_plain.
  destruct (t_def t) as [fs|vs|el|n el|ids|x|inner|s o].
  - eapply sim_bind; [apply sim_fields; intros f Hf; apply Hm; eauto| |].
    { intros l l' Hll. apply sim_ret, GX_ext, G_struct, Hll. }
    intros l Hx. apply keeps_ret, T_struct, Hx.
  - eapply sim_bind0; [apply sim_reject|]. intros _ _ _.
    destruct vs as [|v vs]; [apply sim_ret, GX_ext, G_refl|].
    eapply sim_bind; [apply sim_variant; intros w f Hw Hf; apply Hm; eauto| |].
    { intros ? ? (nm & docs & l & l' & -> & -> & Hll). apply sim_ret, GX_ext, G_enum, Hll. }
    intros l Hx. apply keeps_ret, T_enum, Hx.
  - eapply sim_bind0; [apply of_trk, trk_get_compact with (1 := fl_len) (2 := fl_bound) (3 := fl_rd)|]. intros n ? <-. apply sim_elements, Hm. reflexivity.
  - apply sim_elements, Hm. reflexivity.
  - destruct ids as [|i [|j ids]].
    + eapply sim_bind; [apply sim_tuple_loop, Hm|intros l l' Hll; apply sim_ret, GX_ext, G_tuple, Hll|].
      intros l Hx. apply keeps_ret, T_tuple, Hx.
    + eapply sim_bind; [apply sim_tuple_loop, Hm|intros l l' Hll; apply sim_ret, GX_ext, G_tuple, Hll|].
      intros l Hx. apply keeps_ret, T_tuple, Hx.
    + eapply sim_bind0; [apply sim_reject|]. intros _ _ _.
      eapply sim_bind; [apply sim_tuple_loop, Hm|intros l l' Hll; apply sim_ret, GX_ext, G_tuple, Hll|].
      intros l Hx. apply keeps_ret, T_tuple, Hx.
  - eapply sim_bind0; [apply of_trk, trk_primitive with (1 := fl_len) (2 := fl_bound) (3 := fl_rd)|].
    intros l ? <-. apply sim_ret, GX_ext, G_refl.
  - eapply sim_bind0; [apply sim_reject|]. intros _ _ _.
    eapply sim_bind0; [apply sim_lift|]. intros c ? <-. apply Hd, Hm. reflexivity.
  - eapply sim_bind0; [apply sim_reject|]. intros _ _ _.
    eapply sim_bind0; [apply of_trk, trk_bits with (1 := fl_len) (2 := fl_bound) (3 := fl_rd) (4 := fl_res)|].
    intros l ? <-. apply sim_ret, GX_ext, G_refl.
Qed.

Lemma sim_checked c t id p : lookup types id = Some t -> S id ->
  match c with CPalletSpecific _ _ _ _ => False | _ => True end ->
  sim GX TX (decode_checked b1 r1 d1 c t id p) (decode_checked b2 r2 d2 c t id p).
Proof.
  intros Hl Hs Hc. destruct c as [|f| | |n i vs it|f]; cbn [decode_checked]; try contradiction.
  - apply sim_plain; assumption.
  - eapply sim_bind0; [apply of_trk, trk_fixed with (1 := fl_len) (2 := fl_bound) (3 := fl_rd)|].
    intros l ? <-. apply sim_ret, GX_ext, G_refl.
  - eapply sim_bind0; [apply sim_reject|]. intros _ _ _.
    eapply sim_bind0; [apply of_trk, trk_era with (1 := fl_len) (2 := fl_bound) (3 := fl_rd)|].
    intros l ? <-. apply sim_ret, GX_ext, G_refl.
  - eapply sim_bind0; [apply sim_reject|]. intros _ _ _.
    eapply sim_bind0; [apply of_trk, trk_h256 with (1 := fl_len) (2 := fl_bound) (3 := fl_rd)|].
    intros l ? <-. apply sim_ret, GX_ext, G_refl.
  - eapply sim_bind0; [apply of_trk, trk_per with (1 := fl_len) (2 := fl_bound) (3 := fl_rd)|].
    intros l ? <-. apply sim_ret, GX_ext, G_refl.
Qed.

End Step.
End Errors.

(** *** Recognising types *)

(** Recognition by path only. *)
Definition checked0 (t : ty) : checked :=
  match hinted_from_type t with
  | HtFixed k => CFixed k
  | HtEra => CEra
  | HtH256 => CH256
  | HtPer k => CPer k
  | _ => CNone
  end.

Lemma sig_flaky f p e : let '(o, q, _) := signature_from_field r1 f p e in
  match o with
  | Ok s => q = p /\ (s = SigNone \/ s = sig_kind (bare_signature types f))
  | Err _ => False
  | _ => True
  end.
Proof.
  pose proof (sig_mem (E2 := unit) types f p tt) as H2. revert H2. unfold signature_from_field, bind, catch.
  pose proof (trk_husk r1 types 0 0 True fl_bound fl_res (f_ty f) checker_new p e tt (Nat.le_0_l _)) as H.
  rewrite Nat.add_0_r in H. unfold tracked in H.
  assert (Hpos : snd (fst (husk_type r1 (f_ty f) checker_new p e)) = p).
  { apply keeps_husk. }
  assert (Hpos2 : snd (fst (husk_type r2 (f_ty f) checker_new p tt)) = p).
  { apply keeps_husk. }
  destruct (husk_type r1 (f_ty f) checker_new p e) as [[o1 q1] e1].
  destruct (husk_type r2 (f_ty f) checker_new p tt) as [[o2 q2] []]. cbn [fst snd] in Hpos, Hpos2. subst q1 q2.
  destruct o1 as [hu|x| |]; auto; try (intros _; unfold ret; auto; fail).
  destruct H as [(_ & [H|(x & H & _)])|H]; try discriminate H. destruct o2 as [hu2|x| |]; try contradiction.
  destruct H as ([<- Hl] & _). destruct (t_def (hu_ty hu)) as [| | |len el| | | |]; try (intros _; unfold ret; auto; fail).
  pose proof (fl_res el e1) as Hre. unfold resolve_ty. cbn [resolve portable]. unfold portable_resolve.
  destruct (resolve r1 el e1) as [[t|x] e1']; cbn [fst] in Hre.
  - rewrite Hre. unfold ret. destruct (t_def t) as [| | | | |pr| |]; auto. destruct pr as [| | |w| | |]; auto. destruct w; auto.
    destruct (f_type_name f) as [tn|]; auto. unfold ret.
    repeat match goal with |- context [if ?c then _ else _] => destruct c end; intros H2; injection H2 as H2; auto.
  - intros _. unfold ret. auto.
Qed.

Lemma pick_flaky vs p q e : let '(o, q', _) := pick_variant b1 vs p q e in
  match o with
  | Ok v => q' = q /\ In v vs /\ forall q0, pick_variant b2 vs p q0 tt = (Ok v, q0, tt)
  | Err _ => q' = q
  | _ => True
  end.
Proof.
  unfold pick_variant, bind, read_byte, bind, read_slice. pose proof (fl_rd p 1 e tt (Nat.le_0_l _)) as H. rewrite Nat.add_0_r in H.
  destruct (rd b1 p 1 e) as [[l|x] e1]; cbn [fst] in H; [|reflexivity].
  destruct l as [|i [|]]; unfold ret, panic; auto. destruct (find_variant vs i) as [v|] eqn:Hv; [|reflexivity].
  unfold ret. split; [reflexivity|split; [eapply find_some, Hv|]]. intros q0.
  destruct (rd b2 p 1 tt) as [y []]. cbn [fst] in H. subst y. rewrite Hv. reflexivity.
Qed.

Definition recognised (t : ty) (p : nat) (c : checked) : Prop :=
  exists vs v f, t_def t = TVariant vs /\ In v vs /\ v_fields v = [f] /\
    (forall q0, pick_variant b2 vs p q0 tt = (Ok v, q0, tt)) /\
    ((exists k, c = CFixed k /\ classify t = SpMultiSig /\ bare_signature types f = Some k) \/
     (exists item t1 var, c = CPalletSpecific (v_name v) (info_from_ty t1) var item /\ classify t = SpItem item /\
        lookup types (f_ty f) = Some t1 /\ classify t1 = SpItem item /\ t_def t1 = TVariant var)).

Lemma checked_flaky t p e : let '(o, q, _) := checked_from_type b1 r1 t p e in
  match o with
  | Ok c => (c = checked0 t /\ q = p) \/ (q = (p + 1)%nat /\ recognised t p c)
  | Err _ => False
  | _ => True
  end.
Proof.
  assert (Hcl : forall i, hinted_from_type t = HtPalletSpecific i -> classify t = SpItem i).
  { intros i. rewrite hinted_classify. unfold hinted_of. destruct (classify t); try discriminate; [|congruence]. destruct (strs_eqb _ _); discriminate. }
  assert (Hms : hinted_from_type t = HtMultiSignature -> classify t = SpMultiSig).
  { rewrite hinted_classify. unfold hinted_of. destruct (classify t); try discriminate; [|reflexivity]. destruct (strs_eqb _ _); discriminate. }
  unfold checked_from_type, checked0. destruct (hinted_from_type t) as [|hk| | | |item|hp|] eqn:Hh; try (unfold ret; left; split; reflexivity).
  - destruct (t_def t) as [|vs| | | | | |] eqn:Hd; try (unfold ret; left; split; reflexivity).
    unfold bind, get_pos, catch. pose proof (pick_flaky vs p p e) as Hp.
    destruct (pick_variant b1 vs p p e) as [[[v|x| |] q] e1]; auto; [|subst q; unfold ret; left; split; reflexivity].
    destruct Hp as (-> & Hin & Hp). destruct (v_fields v) as [|f [|g fs]] eqn:Hvf; try (unfold ret; left; split; reflexivity).
    pose proof (sig_flaky f p e1) as Hs. destruct (signature_from_field r1 f p e1) as [[[s|x| |] q] e2]; auto.
    destruct Hs as [-> [-> | ->] ]; [unfold ret; left; split; reflexivity|].
    destruct (bare_signature types f) as [k|] eqn:Hbs; cbn [sig_kind]; [|unfold ret; left; split; reflexivity].
    assert (Hrec : recognised t p (CFixed k)).
    { exists vs, v, f. repeat split; auto. left. exists k. auto. }
    destruct (bare_signature_kinds _ _ _ Hbs) as [-> | [-> | ->] ]; unfold set_pos, ret; right; (split; [reflexivity|exact Hrec]).
  - destruct (t_def t) as [|vs| | | | | |] eqn:Hd; try (unfold ret; left; split; reflexivity).
    unfold bind, get_pos, catch. pose proof (pick_flaky vs p p e) as Hp.
    destruct (pick_variant b1 vs p p e) as [[[v|x| |] q] e1]; auto; [|subst q; unfold ret; left; split; reflexivity].
    destruct Hp as (-> & Hin & Hp). destruct (v_fields v) as [|f [|g fs]] eqn:Hvf; try (unfold ret; left; split; reflexivity).
    unfold resolve_ty. pose proof (fl_res (f_ty f) e1) as Hre. destruct (resolve r1 (f_ty f) e1) as [[t1|x] e2]; cbn [fst] in Hre;
      [|unfold ret; left; split; reflexivity].
    destruct (hinted_from_type t1) as [| | | | |i1| |] eqn:Hh1; try (unfold ret; left; split; reflexivity).
    destruct (pitem_eqb item i1) eqn:Hpi; [|unfold ret; left; split; reflexivity].
    destruct (t_def t1) as [|var| | | | | |] eqn:Hd1; try (unfold ret; left; split; reflexivity).
    unfold set_pos, ret. right. split; [reflexivity|]. exists vs, v, f. repeat split; auto. right.
    exists item, t1, var. repeat split; auto.
    rewrite hinted_classify in Hh1. unfold hinted_of in Hh1.
    destruct (classify t1); try discriminate Hh1; [destruct (strs_eqb _ _); discriminate Hh1|].
    injection Hh1 as ->. destruct item, i1; try discriminate Hpi; reflexivity.
Qed.

Lemma checked0_simple t : match checked0 t with CPalletSpecific _ _ _ _ => False | _ => True end.
Proof. unfold checked0. destruct (hinted_from_type t); exact I. Qed.
End Two.

(** *** Without recognised types: exactly the same *)

Lemma gf_eq l l' : Forall2 (GF eq) l l' -> l = l'.
Proof.
  induction 1 as [|x y l l' (n & t & docs & a & b & -> & -> & [H1 H2]) Hl IH]; [reflexivity|].
  destruct a as [ad ai], b as [bd bi]. cbn in H1, H2. subst. reflexivity.
Qed.

Lemma gx_eq l l' : Forall2 (GX eq) l l' -> l = l'.
Proof. induction 1 as [|[a i] [b j] l l' [H1 H2] Hl IH]; [reflexivity|]. cbn in H1, H2. subst. reflexivity. Qed.

Lemma forall2_eq {A} (l l' : list A) : Forall2 eq l l' -> l = l'.
Proof. induction 1; congruence. Qed.

Lemma checked_exact {E} (b : buffer E) (r : registry E) t :
  match classify t with SpMultiSig | SpItem _ => False | _ => True end ->
  checked_from_type b r t = ret (checked0 t).
Proof.
  intros H. unfold checked_from_type, checked0. rewrite hinted_classify. unfold hinted_of.
  destruct (classify t); try contradiction; try reflexivity. destruct (strs_eqb _ _); reflexivity.
Qed.

Lemma sim_exact {E} (b : buffer E) r data types S : flaky_copy b data -> flaky_registry r types ->
  unrecognised types S -> forall n i P, in_ok types S i ->
  sim False (GX eq) (TX clean) (decode b r n i P) (decode (@slice_buffer unit data) (portable types) n i P).
Proof.
  intros Hb Hr HS n. induction n as [|n IH]; intros i P Hi; cbn [decode].
  { intros p e. exact I. }
  unfold decode_body.
  eapply sim_bind0 with (R := fun x y => x = y /\ lookup types (snd x) = Some (fst x) /\ S (snd x)).
  { destruct i as [t id|id]; cbn [in_ok] in Hi.
    - apply sim_ret. auto.
    - eapply sim_bind0; [apply sim_resolve; auto|]. intros t ? [<- Ht]. apply sim_ret. auto. }
  intros [t id] ? (<- & Hl & Hs). cbn [fst snd] in Hl, Hs.
  destruct (HS id t Hs Hl) as [_ Hcl]. rewrite !checked_exact by exact Hcl.
  eapply sim_bind0 with (R := fun x y => x = checked0 t /\ y = checked0 t); [apply sim_ret; auto|]. intros c ? [-> ->].
  apply sim_checked with (S := S); auto.
  - intros l l' H. rewrite (gf_eq _ _ H). reflexivity.
  - intros k docs l l' H. rewrite (gf_eq _ _ H). reflexivity.
  - intros l l' H. rewrite (gx_eq _ _ H). reflexivity.
  - intros j l l' H. rewrite (forall2_eq _ _ H). reflexivity.
  - intros l H. apply Exists_exists in H. destruct H as (? & _ & []).
  - intros v H. apply Exists_exists in H. destruct H as (? & _ & []).
  - intros l H. apply Exists_exists in H. destruct H as (? & _ & []).
  - intros j l H. apply Exists_exists in H. destruct H as (? & _ & []).
  - intros j t' k Hj Hlj. apply (HS j t' Hj Hlj).
  - apply checked0_simple.
Qed.

Lemma flaky_fuel {E} (b : buffer E) r data types : flaky_copy b data -> flaky_registry r types ->
  decode_fuel b r = decode_fuel (@slice_buffer unit data) (portable types).
Proof. intros [H1 _] [H2 _]. unfold decode_fuel. rewrite H1, H2. reflexivity. Qed.

Lemma flaky_good {E} (b : buffer E) data : flaky_copy b data -> good_buffer b.
Proof.
  intros [Hl H] p n e l e' Hrd. rewrite Hl. destruct (H p n e) as [H1|(c & H1)]; rewrite Hrd in H1; cbn [fst] in H1; [|discriminate].
  destruct (rd (slice_buffer data) p n tt) as [x e2] eqn:H2. cbn [fst] in H1. subst x.
  exact (good_slice data _ _ _ _ _ H2).
Qed.

Lemma flaky_good_reg {E} (r : registry E) types : flaky_registry r types -> good_registry r.
Proof.
  intros [Hl H] id e t e' Hrd. rewrite Hl. destruct (H id e) as [H1|(c & H1)]; rewrite Hrd in H1; cbn [fst] in H1; [|discriminate].
  destruct (resolve (portable types) id tt) as [x e2] eqn:H2. cbn [fst] in H1. subst x.
  exact (good_portable types _ _ _ _ H2).
Qed.

Theorem exact_anyway {E} (b : buffer E) r types data S id pos e o q e' :
  flaky_copy b data -> flaky_registry r types -> unrecognised types S -> S id ->
  decode_as_type_at_position b r id pos e = (o, q, e') ->
  (exists x, o = Err x /\ pext x) \/
  match o with
  | Ok x => decode_at types data id pos = (Ok x, q)
  | _ => exists q', decode_at types data id pos = (o, q')
  end.
Proof.
  intros Hb Hr HS Hid H. pose proof (decode_at_runs b r (flaky_good _ _ Hb) (flaky_good_reg _ _ Hr) id pos e) as Hrun.
  pose proof (sim_exact b r data types S Hb Hr HS (decode_fuel b r) (Symbol id) propagated_new Hid pos e) as Hs.
  unfold decode_as_type_at_position, decode_with_type in H, Hrun. unfold decode_at, decode_as_type_at_position, decode_with_type.
  rewrite <- (flaky_fuel b r data types Hb Hr). rewrite H in Hs, Hrun. unfold simp in Hs.
  destruct (decode (slice_buffer data) (portable types) _ _ _ _ _) as [[o2 q2] e2].
  destruct o as [x|x| |]; [| |destruct Hrun|destruct Hrun].
  - destruct Hs as (y & -> & [Hs1 Hs2] & ->). right. destruct x as [xd xi], y as [yd yi]. cbn in Hs1, Hs2. subst. reflexivity.
  - destruct Hs as [Hs|Hs]; [left; eauto|]. destruct o2 as [y|y| |]; try tauto. destruct Hs as [[]|<-]. right. eauto.
Qed.

(** *** In general: the same reading *)

(** The decoder without recognition of signatures, calls and events. *)
Section Plain.
Variable data : bytes.
Variable types : list ty.
Local Notation b2 := (@slice_buffer unit data).
Local Notation r2 := (@portable unit types).

Definition body0 (dec : ty_input -> propagated -> M unit parser_err (ext pdata)) (inp : ty_input) (p : propagated)
  : M unit parser_err (ext pdata) :=
  do ti <- match inp with
           | Resolved t id => ret (t, id)
           | Symbol id => do t <- map_err PRegistry (resolve_ty r2 id); ret (t, id)
           end;
  let '(t, id) := ti in
  decode_checked b2 r2 dec (checked0 t) t id (add_info p (info_from_ty t)).

Fixpoint decode0 (fuel : nat) (inp : ty_input) (p : propagated) : M unit parser_err (ext pdata) :=
  match fuel with
  | O => out_of_fuel
  | S fuel' => body0 (decode0 fuel') inp p
  end.

Lemma checked0_def t d : def_of t = Some d -> checked0 t = CNone.
Proof.
  unfold def_of, checked0. rewrite hinted_classify. unfold hinted_of. destruct (classify t); try discriminate; try reflexivity.
  destruct (strs_eqb _ _); reflexivity.
Qed.

Lemma def_of_def t d : def_of t = Some d -> t_def t = d.
Proof. unfold def_of. destruct (classify t); congruence. Qed.

Definition byte_form (x : N) : pdata := DUInt U8 x SuNone.

Lemma byte0 m te el c p : def_of te = Some (TPrimitive (PrU U8)) -> compact_at c = None -> c_hint c = HNone ->
  match nth_error data p with
  | Some x => exists i, decode0 (S m) (Resolved te el) (with_checker c) p tt = (Ok (Ext (byte_form x) i), (p + 1)%nat, tt)
  | None => exists y q, decode0 (S m) (Resolved te el) (with_checker c) p tt = (Err y, q, tt)
  end.
Proof.
  intros Hd Hc Hh.
  assert (Heq : decode0 (S m) (Resolved te el) (with_checker c) p tt =
    (do d <- parse_uint b2 U8 c; ret (Ext d (info_of (add_info (with_checker c) (info_from_ty te))))) p tt).
  { cbn [decode0]. unfold body0. unfold bind at 1, ret at 1. rewrite (checked0_def _ _ Hd). cbn [decode_checked].
    unfold decode_plain. rewrite (def_of_def _ _ Hd), add_info_checker. reflexivity. }
  rewrite Heq. clear Heq.
  unfold parse_uint. rewrite Hc, Hh. cbn [hint_uint]. unfold cut_uint, cut_and_decode, read_exact, bind, get_pos, read_slice.
  cbn [rd slice_buffer]. unfold slice_rd. cbn [usize].
  destruct (nth_error data p) as [x|] eqn:Hx.
  - assert (Hp : (p < List.length data)%nat) by (apply nth_error_Some; congruence).
    replace (List.length data <? p)%nat with false by lia.
    replace (N.of_nat (List.length data) <? N.of_nat p + N.of_nat 1)%N with false by lia.
    replace (slice data p (N.to_nat (N.of_nat 1))) with [x].
    2: { unfold slice. rewrite Nat2N.id. apply nth_error_split in Hx. destruct Hx as (l1 & l2 & -> & <-).
         rewrite skipn_app, skipn_all, Nat.sub_diag. reflexivity. }
    cbn [List.length]. rewrite N.eqb_refl. unfold shift_pos, bind, get_pos, set_pos, ret. cbn [le_val].
    rewrite N.mul_0_r, N.add_0_r. eexists. reflexivity.
  - apply nth_error_None in Hx. destruct (List.length data <? p)%nat eqn:H1; [do 2 eexists; reflexivity|].
    replace (N.of_nat (List.length data) <? N.of_nat p + N.of_nat 1)%N with true by lia. do 2 eexists; reflexivity.
Qed.

Lemma bytes0 m te el c infos : def_of te = Some (TPrimitive (PrU U8)) -> compact_at c = None -> c_hint c = HNone ->
  forall n p,
  if (p + n <=? List.length data)%nat
  then elements_loop (decode0 (S m)) n (Husked infos c te el) p tt = (Ok (map byte_form (slice data p n)), (p + n)%nat, tt)
  else (0 < n)%nat -> exists y q, elements_loop (decode0 (S m)) n (Husked infos c te el) p tt = (Err y, q, tt).
Proof.
  intros Hd Hc Hh. induction n as [|n IH]; intros p.
  - rewrite Nat.add_0_r. destruct (p <=? List.length data)%nat; [|lia]. reflexivity.
  - cbn [elements_loop hu_ty hu_id hu_checker]. pose proof (byte0 m te el c p Hd Hc Hh) as Hb.
    destruct (nth_error data p) as [x|] eqn:Hx.
    + destruct Hb as (i & Hb). assert (Hp : (p < List.length data)%nat) by (apply nth_error_Some; congruence).
      specialize (IH (p + 1)%nat). replace (p + 1 + n)%nat with (p + S n)%nat in IH by lia.
      unfold bind. rewrite Hb. destruct (p + S n <=? List.length data)%nat eqn:Hle.
      * rewrite IH. unfold ret. cbn [x_data]. f_equal. f_equal. f_equal.
        apply nth_error_split in Hx. destruct Hx as (l1 & l2 & -> & <-). unfold slice.
        rewrite !skipn_app, skipn_all, Nat.sub_diag. rewrite skipn_all2 by lia.
        replace (List.length l1 + 1 - List.length l1)%nat with 1%nat by lia. reflexivity.
      * intros _. destruct n as [|n].
        -- exfalso. lia.
        -- destruct (IH (Nat.lt_0_succ n)) as (y & q & ->). eauto.
    + apply nth_error_None in Hx. replace (p + S n <=? List.length data)%nat with false by lia. intros _.
      destruct Hb as (y & q & Hb). unfold bind. rewrite Hb. eauto.
Qed.

Lemma wrap_bytes l : l <> [] -> wrap_sequence (map byte_form l) = Some (SeqU U8 l).
Proof.
  intros H. assert (Hh : forall l', husk_set_uint U8 (map byte_form l') = Some l').
  { induction l' as [|y l' IH]; [reflexivity|].
    change (option_map (cons y) (husk_set_uint U8 (map byte_form l')) = Some (y :: l')). rewrite IH. reflexivity. }
  destruct l as [|x l]; [congruence|].
  change (option_map (SeqU U8) (husk_set_uint U8 (map byte_form (x :: l))) = Some (SeqU U8 (x :: l))). rewrite Hh. reflexivity.
Qed.

Lemma straight0 path el te : straight types path el -> lookup types el = Some te -> def_of te = Some (TPrimitive (PrU U8)) ->
  forall cyc id l fuel seen cpt x final t len el' m P p, path = id :: l -> NoDup (cyc ++ path) ->
  peel types fuel seen cpt id = Some (x, final) -> lookup types final = Some t -> t_def t = TArray len el' -> len <> 0%N ->
  cycle_check (checker_of P) = cyc ++ [id] -> compact_at (checker_of P) = None -> (List.length path + 1 <= m)%nat ->
  (forall i, In i (cyc ++ path) -> i <> el) ->
  forall res, decode0 m (Symbol id) P p tt = res ->
  if (p + N.to_nat len <=? List.length data)%nat
  then exists w i, res = (Ok (Ext w i), (p + N.to_nat len)%nat, tt) /\ wraps w (slice data p (N.to_nat len))
  else exists y q, res = (Err y, q, tt).
Proof.
  intros Hst Hel Hte. induction Hst as [id0 t0 n el Hl Hdef|id0 t0 i l0 el Hl Htr Hst IH];
    intros cyc id l fuel seen cpt x final t len el' m P p Hpath Hnd Hpeel Hlf Htd Hlen Hcyc Hcpt Hm Hne res Hres;
    assert (Hid : id = id0) by congruence; subst id; (destruct fuel as [|fuel]; [discriminate|]); cbn [peel] in Hpeel;
    (destruct (existsb (N.eqb id0) seen); [discriminate|]); rewrite Hl in Hpeel;
    (destruct m as [|m]; [cbn [List.length] in Hm; lia|]); cbn [decode0] in Hres; unfold body0 in Hres;
    unfold bind at 1 in Hres; unfold bind at 1 in Hres; unfold map_err at 1, resolve_ty at 1 in Hres;
    cbn [resolve portable] in Hres; unfold portable_resolve in Hres; rewrite Hl in Hres; unfold ret at 1 in Hres.
  - pose proof (def_of_def _ _ Hdef) as Hdef'. assert (Htr : transparent t0 = None).
    { unfold transparent. rewrite Hdef'. destruct (classify t0); try reflexivity. destruct (strs_eqb _ _); reflexivity. }
    rewrite Htr in Hpeel. injection Hpeel as _ <-. rewrite Hl in Hlf. injection Hlf as <-.
    rewrite Hdef' in Htd. injection Htd as -> <-.
    rewrite (checked0_def _ _ Hdef) in Hres. cbn [decode_checked] in Hres. unfold decode_plain in Hres. rewrite Hdef' in Hres.
    unfold decode_elements_set in Hres. rewrite add_info_checker in Hres.
    unfold bind at 1 in Hres. rewrite (reject_none _ _ _ Hcpt) in Hres.
    assert (Hhusk : exists infos c, husk_type r2 el (checker_of P) p tt = (Ok (Husked infos c te el), p, tt) /\ compact_at c = None /\ c_hint c = HNone).
    { unfold husk_type, bind, lift_int, map_err, lift. rewrite check_id_fresh.
      2: { rewrite Hcyc. intros Hin. apply (Hne el); [|reflexivity]. exact Hin. }
      unfold ret. unfold resolve_ty. cbn [resolve portable]. unfold portable_resolve. rewrite Hel.
      unfold husk_fuel. cbn [husk_loop].
      assert (Hd : t_def te = TPrimitive (PrU U8)) by apply (def_of_def _ _ Hte). rewrite Hd.
      do 2 eexists. split; [destruct (hinted_from_type te); reflexivity|split; reflexivity]. }
    destruct Hhusk as (infos & c & Hhusk & Hc1 & Hc2).
    replace (len =? 0)%N with false in Hres by (symmetry; apply N.eqb_neq, Hlen).
    destruct m as [|m]; [cbn [List.length] in Hm; lia|].
    pose proof (bytes0 m te el c infos Hte Hc1 Hc2 (N.to_nat len) p) as Hb.
    unfold bind at 1 in Hres. unfold map_err at 1 in Hres. rewrite Hhusk in Hres. unfold bind at 1 in Hres.
    destruct (p + N.to_nat len <=? List.length data)%nat eqn:Hle.
    + rewrite Hb in Hres. unfold ret in Hres. rewrite wrap_bytes in Hres.
      2: { intros Hnil. apply (f_equal (@List.length N)) in Hnil. unfold slice in Hnil. rewrite firstn_length, skipn_length in Hnil.
           cbn [List.length] in Hnil. lia. }
      subst res. do 2 eexists. split; [reflexivity|]. constructor.
    + destruct (Hb ltac:(lia)) as (y & q & Hy). rewrite Hy in Hres. subst res. eauto.
  - destruct (transparent_false _ _ Htr) as (f & Hdf & -> & Hdf2). assert (Hll : l = f_ty f :: l0) by congruence. subst l.
    rewrite Htr, andb_false_r in Hpeel.
    destruct (peel types fuel (seen ++ [id0]) (cpt || false) (f_ty f)) as [[x1 fin]|] eqn:Hp1; [|discriminate].
    injection Hpeel as _ ->.
    assert (Hck : checked0 t0 = CNone).
    { unfold checked0. rewrite hinted_classify. unfold hinted_of. rewrite (transparent_plain _ _ Htr). destruct (strs_eqb _ _); reflexivity. }
    rewrite Hck in Hres. cbn [decode_checked] in Hres. unfold decode_plain in Hres. rewrite Hdf, add_info_checker in Hres.
    unfold decode_fields in Hres. cbn [fields_loop] in Hres.
    assert (Hfr : ~ In (f_ty f) (cycle_check (checker_of P))).
    { rewrite Hcyc. intros Hin. rewrite <- (app_nil_r (cyc ++ [id0])) in Hin.
      replace (cyc ++ id0 :: f_ty f :: l0) with ((cyc ++ [id0]) ++ f_ty f :: l0) in Hnd by (rewrite <- app_assoc; reflexivity).
      apply NoDup_remove_2 in Hnd. apply Hnd. apply in_or_app. left. rewrite app_nil_r in Hin. exact Hin. }
    destruct (update_fresh _ _ Hfr) as (c' & Hu & Hcy & Hco).
    unfold bind at 1 in Hres. unfold bind at 1 in Hres. unfold lift_p at 1, map_err at 1, for_field at 1 in Hres. rewrite Hu in Hres.
    unfold lift in Hres. unfold ret at 1 in Hres.
    specialize (IH Hel (cyc ++ [id0]) (f_ty f) l0 fuel (seen ++ [id0]) (cpt || false) x1 final t len el' m (with_checker c') p eq_refl).
    assert (Happ : (cyc ++ [id0]) ++ f_ty f :: l0 = cyc ++ id0 :: f_ty f :: l0) by (rewrite <- app_assoc; reflexivity).
    rewrite Happ in IH.
    specialize (IH Hnd Hp1 Hlf Htd Hlen).
    cbn [with_checker checker_of] in IH. rewrite Hcy, Hcyc, Hco in IH. specialize (IH eq_refl Hcpt).
    cbn [List.length] in Hm, IH. specialize (IH ltac:(lia)).
    specialize (IH Hne _ eq_refl).
    destruct (p + N.to_nat len <=? List.length data)%nat.
    + destruct IH as (w & i & HI & Hw). unfold bind at 1 in Hres. rewrite HI in Hres. unfold bind, ret in Hres. subst res.
      do 2 eexists. split; [reflexivity|]. constructor. exact Hw.
    + destruct IH as (y & q & HI). unfold bind at 1 in Hres. rewrite HI in Hres. subst res. eauto.
Qed.
End Plain.

Scheme folds_mut := Minimality for folds Sort Prop
  with folds_ext_mut := Minimality for folds_ext Sort Prop
  with folds_field_mut := Minimality for folds_field Sort Prop.

Lemma gf_folds l l' : Forall2 (GF folds) l l' -> Forall2 folds_field l l'.
Proof.
  induction 1 as [|x y l l' (n & t & docs & a & b & -> & -> & [H1 H2]) Hl IH]; constructor; auto.
  destruct a as [ad ai], b as [bd bi]. cbn in H1, H2. subst. constructor. exact H1.
Qed.

Lemma gx_folds x y : GX folds x y -> folds_ext x y.
Proof. intros [H1 H2]. destruct x as [xd xi], y as [yd yi]. cbn in H1, H2. subst. constructor. exact H1. Qed.

Lemma husk_uint_folds w l l' : Forall2 folds l l' -> husk_set_uint w l = husk_set_uint w l'.
Proof.
  induction 1 as [|d d' l l' Hd Hl IH]; [reflexivity|]. inversion Hd; subst; try reflexivity.
  cbn [husk_set_uint]. destruct d' as [| | | | | |w' a sp| | | | | | | | | | | | |]; try reflexivity. destruct sp; try reflexivity. rewrite IH. reflexivity.
Qed.

Lemma husk_vec_folds l l' : Forall2 folds l l' -> forall i, husk_set_vec l i = husk_set_vec l' i.
Proof.
  induction 1 as [|d d' l l' Hd Hl IH]; intros i; [reflexivity|]. inversion Hd as [d0|? ? ?|? ? ? ? ?|? ? ?|j a a' Ha| | |]; subst; try reflexivity.
  - cbn [husk_set_vec]. destruct d' as [| | | | | | | | | | | | | | | | | |ei s|ei el]; try reflexivity.
    + destruct s as [w x|]; [|reflexivity]. destruct w; try reflexivity. destruct i as [i|]; rewrite IH; reflexivity.
    + destruct el; [|reflexivity]. rewrite IH. reflexivity.
  - cbn [husk_set_vec]. destruct Ha; [rewrite IH|]; reflexivity.
Qed.

Lemma wrap_folds l l' : Forall2 folds l l' -> wrap_sequence l = wrap_sequence l'.
Proof.
  intros H. pose proof (fun w => husk_uint_folds w _ _ H) as Hu. pose proof (fun i => husk_vec_folds _ _ H i) as Hv.
  destruct H as [|d d' l l' Hd Hl]; [reflexivity|]. inversion Hd; subst; try reflexivity.
  unfold wrap_sequence. destruct d' as [| | | | | |w' a sp| | | | | | | | | | | |ei s|ei el]; try reflexivity.
  - rewrite Hu. reflexivity.
  - destruct s as [w x|]; [|reflexivity]. destruct w; try reflexivity. rewrite Hv. reflexivity.
Qed.

Lemma vec_folds i l l' : Forall2 folds l l' ->
  folds (match wrap_sequence l with Some s => DSequence i s | None => DSequenceRaw i l end)
        (match wrap_sequence l' with Some s => DSequence i s | None => DSequenceRaw i l' end).
Proof. intros H. rewrite (wrap_folds _ _ H). destruct (wrap_sequence l'); [constructor|]. constructor. exact H. Qed.

(** Paths of straight signatures. *)
Lemma straight_types types path el : straight types path el -> forall i, In i path ->
  exists t, lookup types i = Some t /\ match t_def t with TArray _ _ | TComposite _ => True | _ => False end.
Proof.
  induction 1 as [id0 t n el Hl Hdef|id0 t i l0 el Hl Htr Hst IH]; intros j [<-|Hj].
  - exists t. split; [exact Hl|]. rewrite (def_of_def _ _ Hdef). exact I.
  - destruct Hj.
  - exists t. split; [exact Hl|]. destruct (transparent_false _ _ Htr) as (f & -> & _). exact I.
  - apply IH, Hj.
Qed.

Lemma path_bound types (l : list N) : NoDup l -> (forall i, In i l -> exists t, lookup types i = Some t) ->
  (List.length l <= List.length types)%nat.
Proof.
  intros Hn Hl. rewrite <- (seq_length (List.length types) 0), <- (map_length N.to_nat l). apply NoDup_incl_length.
  - apply FinFun.Injective_map_NoDup; [|exact Hn]. intros a b H. lia.
  - intros x Hx. apply in_map_iff in Hx. destruct Hx as (i & <- & Hi). destruct (Hl i Hi) as (t & Ht).
    apply lookup_lt in Ht. apply in_seq. lia.
Qed.

Lemma shown_add P i : info_of P = [] -> info_of (add_info P i) = shown i.
Proof.
  intros H. unfold add_info, info_is_empty. destruct i as [d p]. cbn [i_docs i_path shown].
  destruct d, p; cbn [str_is_empty andb info_of]; rewrite H; reflexivity.
Qed.

Section Folding.
Context {E : Type}.
Variable b : buffer E.
Variable r : registry E.
Variable data : bytes.
Variable types : list ty.
Hypothesis Hb : flaky_copy b data.
Hypothesis Hr : flaky_registry r types.
Hypothesis Hsig : plain_signatures types.
Variable TD : pdata -> Prop.
Hypothesis Hitems : pallets_have_items types \/
  forall n docs fn ft fdocs i, TD (DVariant (VData n docs [FData fn ft fdocs (Ext DEmptyEnum i)])).
Hypothesis T_struct : forall l, Exists (TF TD) l -> TD (DComposite l).
Hypothesis T_enum : forall v, TV TD v -> TD (DVariant v).
Hypothesis T_tuple : forall l, Exists (TX TD) l -> TD (DTuple l).
Hypothesis T_vec : forall i l, Exists TD l ->
  TD (match wrap_sequence l with Some s => DSequence i s | None => DSequenceRaw i l end).
Local Notation b2 := (@slice_buffer unit data).
Local Notation r2 := (@portable unit types).


Lemma fixed_mem k c p : compact_at c = None -> forall res, parse_fixed b2 k c p tt = res ->
  if (p + raw_len k <=? List.length data)%nat then res = (Ok (DFixed k (slice data p (raw_len k))), (p + raw_len k)%nat, tt)
  else exists y q, res = (Err y, q, tt).
Proof.
  intros Hc res <-. unfold parse_fixed, block_compact. rewrite Hc. unfold cut_fixed, cut_and_decode, read_exact, bind, get_pos, read_slice.
  cbn [rd slice_buffer]. unfold slice_rd.
  assert (Hk : fixed_len k = N.of_nat (raw_len k)) by (destruct k; reflexivity). rewrite Hk.
  destruct (p + raw_len k <=? List.length data)%nat eqn:Hle.
  - replace (List.length data <? p)%nat with false by lia.
    replace (N.of_nat (List.length data) <? N.of_nat p + N.of_nat (raw_len k))%N with false by lia.
    rewrite Nat2N.id.
    replace (N.of_nat (List.length (slice data p (raw_len k))) =? N.of_nat (raw_len k))%N with true.
    2: { unfold slice. rewrite firstn_length, skipn_length. lia. }
    unfold shift_pos, bind, get_pos, set_pos, ret. rewrite Nat2N.id. reflexivity.
  - destruct (List.length data <? p)%nat; [eauto|].
    replace (N.of_nat (List.length data) <? N.of_nat p + N.of_nat (raw_len k))%N with true by lia. eauto.
Qed.

(** A recognised signature, and the plain reading of the same enum. *)
Lemma fold_signature t id p k vs v f m P e : lookup types id = Some t -> t_def t = TVariant vs -> In v vs -> v_fields v = [f] ->
  (forall q0, pick_variant b2 vs p q0 tt = (Ok v, q0, tt)) -> classify t = SpMultiSig -> bare_signature types f = Some k ->
  (List.length types + 2 <= m)%nat ->
  simp True (GX folds) (TX TD) (decode_checked b r (fun _ _ => panic) (CFixed k) t id P (p + 1)%nat e)
    (decode_plain b2 r2 (decode0 data types m) t id P p tt).
Proof.
  intros Hl Hd Hin Hvf Hpick Hcl Hbs Hm. destruct (Hsig id t vs v f k Hl Hd Hin Hvf) as (l & el & te & Hst & Hel & Hte).
  { unfold variant_sig. rewrite Hcl, Hvf. exact Hbs. }
  cbn [decode_checked]. unfold decode_plain. rewrite Hd.
  destruct (compact_at (checker_of P)) as [cid|] eqn:Hcp.
  { rewrite (reject_some _ cid) by exact Hcp. unfold bind, parse_fixed, block_compact. rewrite Hcp. unfold fail, simp. right. auto. }
  unfold bind at 2. rewrite (reject_none _ _ _ Hcp). destruct vs as [|v0 vs]; [destruct Hin|].
  remember (v0 :: vs) as ws eqn:Hws. clear Hws v0 vs.
  (* the bytes *)
  pose proof (of_trk True _ _ _ (trk_fixed b b2 r types 0 0 True (fl_len b data Hb) (proj1 Hr) (fl_rd b data Hb) k (checker_of P)) (p + 1)%nat e) as Hf.
  pose proof (fixed_mem k (checker_of P) (p + 1)%nat Hcp _ eq_refl) as Hmem.
  (* the plain reading *)
  destruct (update_fresh checker_new f ltac:(intros [])) as (c' & Hu & Hcy & Hco).
  unfold bare_signature in Hbs. destruct (f_type_name f) as [tn|] eqn:Htn; [|discriminate].
  destruct (find _ sig_names) as [[sn sk]|] eqn:Hfind; [|discriminate].
  destruct (peel_from types [] (f_ty f)) as [[x final]|] eqn:Hpeel; [|discriminate].
  destruct (lookup types final) as [tf|] eqn:Hlf; [|discriminate]. destruct tf as [tpath tparams tdef tdocs].
  destruct tdef as [| | |len elem| | | |] eqn:Htd; try discriminate.
  destruct (lookup types elem) as [te'|] eqn:Hle; [|discriminate]. destruct te' as [epath eparams edef edocs].
  destruct edef as [| | | | |pr| |]; try discriminate. destruct pr as [| | |w| | |]; try discriminate. destruct w; try discriminate.
  destruct (len =? N.of_nat (raw_len sk))%N eqn:Hlen; [|discriminate]. injection Hbs as ->. apply N.eqb_eq in Hlen.
  assert (Hlen0 : len <> 0%N) by (rewrite Hlen; destruct k; discriminate).
  pose proof (straight_nodup types _ _ Hst) as Hnd.
  assert (Hdec : forall res, decode0 data types m (Symbol (f_ty f)) (with_checker c') (p + 1)%nat tt = res ->
     if (p + 1 + raw_len k <=? List.length data)%nat
     then exists w i, res = (Ok (Ext w i), (p + 1 + raw_len k)%nat, tt) /\ wraps w (slice data (p + 1) (raw_len k))
     else exists y q, res = (Err y, q, tt)).
  { pose proof (straight0 data types _ _ te Hst Hel Hte [] (f_ty f) l _ _ _ x final _ len elem m (with_checker c') (p + 1)%nat eq_refl Hnd Hpeel Hlf eq_refl Hlen0) as H.
    replace (N.to_nat len) with (raw_len k) in H by lia. apply H; clear H.
    - cbn [with_checker checker_of]. rewrite Hcy. reflexivity.
    - cbn [with_checker checker_of]. rewrite Hco. reflexivity.
    - assert (Hbd : (List.length (f_ty f :: l) <= List.length types)%nat).
      { apply path_bound; [exact Hnd|]. intros i Hi. destruct (straight_types _ _ _ Hst i Hi) as (ti & Hti & _). eauto. }
      lia.
    - intros i Hi ->. destruct (straight_types _ _ _ Hst el Hi) as (ti & Hti & Hdi). rewrite Hel in Hti. injection Hti as <-.
      rewrite (def_of_def _ _ Hte) in Hdi. exact Hdi. }
  specialize (Hdec _ eq_refl).
  (* both *)
  unfold decode_variant. unfold bind at 2. unfold bind at 2. unfold get_pos at 1. unfold bind at 2. rewrite Hpick.
  unfold bind at 2. unfold set_pos at 1. unfold bind at 2. rewrite Hvf. unfold decode_fields. cbn [fields_loop].
  unfold bind at 2. unfold lift_p at 1, map_err at 1, for_field at 1. rewrite Hu. unfold lift. unfold ret at 2. unfold bind at 2.
  unfold ENUM_INDEX_ENCODED_LEN. unfold simp in Hf |- *. unfold bind at 1.
  destruct (parse_fixed b k (checker_of P) (p + 1)%nat e) as [[o1 q1] e1].
  destruct (parse_fixed b2 k (checker_of P) (p + 1)%nat tt) as [[o2 q2] []].
  destruct (decode0 data types m (Symbol (f_ty f)) (with_checker c') (p + 1)%nat tt) as [[o3 q3] []].
  destruct (p + 1 + raw_len k <=? List.length data)%nat.
  - injection Hmem as -> ->. destruct Hdec as (w & i & Hdec & Hw). injection Hdec as -> ->.
    unfold bind, ret. destruct o1 as [a|y| |]; auto.
    + destruct Hf as (d & Hd2 & <- & ->). injection Hd2 as <-. eexists. split; [reflexivity|]. split; [|reflexivity].
      split; [|reflexivity]. cbn [x_data]. constructor. exact Hw.
    + left. destruct Hf as [Hf|[_ []]]. exact Hf.
  - destruct Hmem as (y & q & Hmem). injection Hmem as -> ->. destruct Hdec as (y' & q' & Hdec). injection Hdec as -> ->.
    destruct o1 as [a|z| |]; auto.
    + destruct Hf as (d & Hd2 & _). discriminate.
Qed.

Definition fold_fuel : nat := List.length types + 4.

Lemma pick_empty p0 p e : match pick_variant b [] p0 p e with (Ok _, _, _) => False | _ => True end.
Proof. unfold pick_variant, bind. destruct (read_byte b p0 p e) as [[[x|x| |] q] e']; exact I. Qed.

Lemma sim_folds n : forall m i P, (2 * n + fold_fuel <= m)%nat -> in_ok types (fun _ => True) i ->
  sim True (GX folds) (TX TD) (decode b r n i P) (decode0 data types m i P).
Proof.
  induction n as [|n IH]; intros m i P Hm Hi; cbn [decode].
  { intros p e. unfold simp, out_of_fuel. destruct (decode0 _ _ _ _ _ _ _) as [[? ?] ?]. exact I. }
  destruct m as [|m]; [lia|]. cbn [decode0]. unfold decode_body, body0.
  eapply sim_bind0 with (R := fun x y => x = y /\ lookup types (snd x) = Some (fst x)).
  { destruct i as [t id|id]; cbn [in_ok] in Hi.
    - apply sim_ret. split; [reflexivity|]. exact (proj1 Hi).
    - eapply sim_bind0; [apply sim_resolve; auto|]. intros t ? [<- Ht]. apply sim_ret. auto. }
  intros [t id] ? (<- & Hl). cbn [fst snd] in Hl.
  assert (Hsub : forall m' j P', (2 * n + fold_fuel <= m')%nat -> in_ok types (fun _ => True) j ->
    sim True (GX folds) (TX TD) (decode b r n j P') (decode0 data types m' j P')) by auto.
  intros p e. pose proof (checked_flaky b r data types Hb Hr t p e) as Hc. unfold bind at 1.
  destruct (checked_from_type b r t p e) as [[[c|x| |] q] e1]; [|destruct Hc|..].
  2, 3: unfold simp; destruct (decode_checked _ _ _ _ _ _ _ _ _) as [[? ?] ?]; exact I.
  destruct Hc as [[-> ->]|[-> (vs & v & f & Hd & Hin & Hvf & Hpick & Hrec)]].
  - apply sim_checked with (S := fun _ => True); auto.
    + intros d. constructor.
    + intros a a' Ha. constructor. apply gf_folds, Ha.
    + intros nm docs a a' Ha. constructor. apply gf_folds, Ha.
    + intros a a' Ha. constructor. clear - Ha. induction Ha; constructor; auto using gx_folds.
    + intros j a a' Ha. apply vec_folds, Ha.
    + intros j P' Hj. apply Hsub; [lia|exact Hj].
    + apply checked0_simple.
  - destruct Hrec as [(k & -> & Hcl & Hbs)|(item & t1 & var & -> & Hcl & Hl1 & Hcl1 & Hd1)].
    + replace (checked0 t) with CNone.
      2: { unfold checked0. rewrite hinted_classify. unfold hinted_of. rewrite Hcl. reflexivity. }
      change (decode_checked b r (decode b r n) (CFixed k) t id (add_info P (info_from_ty t)))
        with (decode_checked b r (fun _ _ => panic) (CFixed k) t id (add_info P (info_from_ty t))).
      change (decode_checked b2 r2 (decode0 data types m) CNone t id (add_info P (info_from_ty t))) with (decode_plain b2 r2 (decode0 data types m) t id (add_info P (info_from_ty t))). eapply fold_signature; eauto. unfold fold_fuel in Hm. lia.
    + replace (checked0 t) with CNone.
      2: { unfold checked0. rewrite hinted_classify. unfold hinted_of. rewrite Hcl. reflexivity. }
      cbn [decode_checked]. unfold decode_plain at 1. rewrite Hd. rewrite add_info_checker.
      destruct (compact_at (checker_of P)) as [cid|] eqn:Hcp.
      { rewrite !(reject_some _ cid) by exact Hcp. unfold simp. right. auto. }
      unfold bind at 1. rewrite (reject_none _ _ _ Hcp).
      match goal with |- simp _ _ _ _ ?R => remember R as res eqn:Hres; symmetry in Hres end.
      unfold bind at 1 in Hres. rewrite (reject_none _ _ _ Hcp) in Hres.
      destruct vs as [|v0 vs]; [destruct Hin|]. remember (v0 :: vs) as ws eqn:Hws. clear Hws v0 vs.
      destruct (update_fresh checker_new f ltac:(intros [])) as (c' & Hu & Hcy & Hco).
      unfold decode_variant in Hres. unfold bind at 1 in Hres. unfold bind at 1 in Hres. unfold get_pos at 1 in Hres.
      unfold bind at 1 in Hres. rewrite Hpick in Hres.
      unfold bind at 1 in Hres. unfold set_pos at 1 in Hres. unfold bind at 1 in Hres. rewrite Hvf in Hres.
      unfold decode_fields in Hres. cbn [fields_loop] in Hres.
      unfold bind at 1 in Hres. unfold lift_p at 1, map_err at 1, for_field at 1 in Hres. rewrite Hu in Hres.
      unfold lift in Hres. unfold ret at 1 in Hres. unfold bind at 1 in Hres.
      unfold ENUM_INDEX_ENCODED_LEN in Hres. destruct m as [|m]; [lia|]. cbn [decode0] in Hres. unfold body0 in Hres.
      unfold bind at 1 in Hres. unfold bind at 1 in Hres.
      unfold map_err at 1, resolve_ty at 1 in Hres. cbn [resolve portable] in Hres. unfold portable_resolve in Hres.
      rewrite Hl1 in Hres. unfold ret at 1 in Hres.
      replace (checked0 t1) with CNone in Hres.
      2: { unfold checked0. rewrite hinted_classify. unfold hinted_of. rewrite Hcl1. reflexivity. }
      cbn [decode_checked] in Hres. unfold decode_plain in Hres. rewrite Hd1, add_info_checker in Hres. cbn [with_checker checker_of] in Hres.
      unfold bind at 1 in Hres. rewrite (reject_none c' _ _ Hco) in Hres. destruct var as [|w0 var].
      { unfold bind, ret in Hres. subst res. unfold simp.
        pose proof (pick_empty (p + 1)%nat (p + 1)%nat e1) as Hpe. unfold bind at 1, decode_variant at 1. unfold bind at 1, get_pos at 1.
        unfold bind at 1. destruct (pick_variant b [] (p + 1)%nat (p + 1)%nat e1) as [[[w|x| |] q1] e2]; try contradiction; auto.
        right. split; [exact I|]. unfold TX. cbn [x_data]. destruct Hitems as [Hit|HT]; [|apply HT].
        exfalso. refine (Hit id t ws v t1 [] Hl Hd Hin _ eq_refl). unfold pallet_items. rewrite Hvf, Hl1, Hd1, Hcl, Hcl1.
        destruct item; reflexivity. }
      pose proof (sim_variant b data types Hb True folds TD (fun _ => True) (decode b r n) (decode0 data types m)
        (fun j P' Hj => Hsub m j P' ltac:(lia) Hj) (w0 :: var) (fun _ _ _ _ => I) (p + 1)%nat e1) as Hv.
      unfold bind at 1. unfold bind at 1 in Hres. unfold simp in Hv |- *. rewrite <- Hres. clear Hres res.
      destruct (decode_variant b (decode b r n) (w0 :: var) (p + 1)%nat e1) as [[o1 q1] e2].
      destruct (decode_variant b2 (decode0 data types m) (w0 :: var) (p + 1)%nat tt) as [[o2 q2] []].
      destruct o1 as [d|x| |].
      * destruct Hv as (d' & -> & (nm & docs & a & a' & -> & -> & Ha) & ->). unfold bind, ret.
        eexists. split; [reflexivity|]. split; [|reflexivity]. split; [|reflexivity].
        cbn [x_data vd_docs vd_name vd_fields]. rewrite shown_add by reflexivity.
        destruct item; constructor; apply gf_folds, Ha.
      * destruct o2 as [d'| | |]; unfold bind, ret; (destruct Hv as [Hv|Hv]; [left; exact Hv|]); right; auto.
        split; [exact I|]. apply T_enum. left. apply T_enum. exact (proj2 Hv).
      * destruct o2; exact I.
      * destruct o2; exact I.
Qed.
End Folding.

(** External errors are reported by the memory. *)
Theorem external_reported {E} (b : buffer E) (r : registry E) id pos e x q e' : good_buffer b -> good_registry r ->
  decode_as_type_at_position b r id pos e = (Err x, q, e') ->
  (forall c, x = PBuffer (BExternal c) -> exists p n f f', rd b p n f = (inr (BExternal c), f')) /\
  (forall c, x = PRegistry (RExternal c) -> exists i f f', resolve r i f = (inr (RExternal c), f')).
Proof.
  intros Hb Hr H. pose proof (decode_with_type_post b r Hb Hr (Symbol id) propagated_new pos e I eq_refl) as Hp.
  unfold decode_as_type_at_position in H. rewrite H in Hp. unfold post in Hp. destruct Hp as [_ (_ & H1 & H2)].
  split; assumption.
Qed.

Lemma no_external types data id pos x q : decode_at types data id pos = (Err x, q) -> ~ pext x.
Proof.
  intros H Hx. unfold decode_at in H.
  destruct (decode_as_type_at_position (slice_buffer data) (portable types) id pos tt) as [[o q'] e'] eqn:Hd.
  injection H as -> ->. destruct (external_reported _ _ _ _ _ _ _ _ (good_slice data) (good_portable types) Hd) as [H1 H2].
  destruct Hx as [(c & ->)|(c & ->)].
  - destruct (H1 c eq_refl) as (p & n & f & f' & Hf). cbn [rd slice_buffer] in Hf. unfold slice_rd in Hf.
    destruct (_ <? _)%nat; [discriminate|]. destruct (_ <? _)%N; discriminate.
  - destruct (H2 c eq_refl) as (i & f & f' & Hf). cbn [resolve portable] in Hf. unfold portable_resolve in Hf.
    destruct (lookup types i); discriminate.
Qed.

(** The common plain reading. *)
Lemma reading_anyway (TD : pdata -> Prop) {E} (b : buffer E) r types data id pos e o q e' :
  flaky_copy b data -> flaky_registry r types -> plain_signatures types ->
  (pallets_have_items types \/ forall n docs fn ft fdocs i, TD (DVariant (VData n docs [FData fn ft fdocs (Ext DEmptyEnum i)]))) ->
  (forall l, Exists (TF TD) l -> TD (DComposite l)) ->
  (forall v, TV TD v -> TD (DVariant v)) ->
  (forall l, Exists (TX TD) l -> TD (DTuple l)) ->
  (forall i l, Exists TD l -> TD (match wrap_sequence l with Some s => DSequence i s | None => DSequenceRaw i l end)) ->
  decode_as_type_at_position b r id pos e = (o, q, e') ->
  (exists x, o = Err x /\ pext x) \/
  match o with
  | Ok x => exists y, folds_ext x y /\
      match decode_at types data id pos with (Ok x0, q0) => q0 = q /\ folds_ext x0 y | (Err _, _) => TD (x_data y) | _ => False end
  | Err _ => match decode_at types data id pos with
         | (Ok x0, _) => exists y, folds_ext x0 y /\ TD (x_data y) | (Err _, _) => True | _ => False end
  | _ => False
  end.
Proof.
  intros Hb Hr Hsig Hit T1 T2 T3 T4 H. pose proof (decode_at_runs b r (flaky_good _ _ Hb) (flaky_good_reg _ _ Hr) id pos e) as Hrun.
  set (m := (2 * decode_fuel b r + fold_fuel types)%nat).
  pose proof (sim_folds b r data types Hb Hr Hsig TD Hit T1 T2 T3 T4 (decode_fuel b r) m (Symbol id) propagated_new (Nat.le_refl _) I pos e) as Hs.
  assert (Hb0 : flaky_copy (@slice_buffer unit data) data).
  { split; [reflexivity|]. intros p n []. left. reflexivity. }
  assert (Hr0 : flaky_registry (@portable unit types) types).
  { split; [reflexivity|]. intros p []. left. reflexivity. }
  pose proof (decode_at_runs (@slice_buffer unit data) (portable types) (flaky_good _ _ Hb0) (flaky_good_reg _ _ Hr0) id pos tt) as Hrun0.
  pose proof (flaky_fuel b r data types Hb Hr) as Hfu.
  pose proof (sim_folds _ _ data types Hb0 Hr0 Hsig TD Hit T1 T2 T3 T4 (decode_fuel b r) m (Symbol id) propagated_new (Nat.le_refl _) I pos tt) as Hs0.
  unfold decode_as_type_at_position, decode_with_type in H, Hrun, Hrun0. unfold decode_at, decode_as_type_at_position, decode_with_type.
  rewrite <- Hfu in *. rewrite H in Hs, Hrun. unfold simp in Hs, Hs0.
  destruct (decode (slice_buffer data) (portable types) _ _ _ _ _) as [[o0 q0] e0] eqn:H0.
  destruct (decode0 data types m (Symbol id) propagated_new pos tt) as [[o2 q2] e2].
  destruct o0 as [x0|x0| |]; [| |destruct Hrun0|destruct Hrun0]; (destruct o as [x|x| |]; [| |destruct Hrun|destruct Hrun]).
  - destruct Hs as (y & -> & Hy & ->), Hs0 as (y' & Hy1 & Hy2 & ->). injection Hy1 as <-.
    right. exists y. split; [apply gx_folds, Hy|]. split; [reflexivity|apply gx_folds, Hy2].
  - destruct Hs0 as (y & -> & Hy & ->). destruct Hs as [Hs|[_ Hs]]; [left; eauto|]. right. exists y. split; [apply gx_folds, Hy|exact Hs].
  - destruct Hs as (y & -> & Hy & ->). right. exists y. split; [apply gx_folds, Hy|]. destruct Hs0 as [Hs0|[_ Hs0]]; [|exact Hs0].
    exfalso. revert Hs0. apply (no_external types data id pos x0 q0). unfold decode_at, decode_as_type_at_position, decode_with_type.
    rewrite <- Hfu, H0. reflexivity.
  - right. exact I.
Qed.

(** If no pallet is empty. *)
Theorem same_reading_anyway {E} (b : buffer E) r types data id pos e o q e' :
  flaky_copy b data -> flaky_registry r types -> plain_signatures types -> pallets_have_items types ->
  decode_as_type_at_position b r id pos e = (o, q, e') ->
  (exists x, o = Err x /\ pext x) \/
  match o with
  | Ok x => exists x0, decode_at types data id pos = (Ok x0, q) /\ same_reading x x0
  | _ => exists y q', decode_at types data id pos = (Err y, q')
  end.
Proof.
  intros Hb Hr Hsig Hit H.
  assert (HE : forall A (P : A -> Prop) l, (forall x, ~ P x) -> Exists P l -> False).
  { intros A P l HP Hx. apply Exists_exists in Hx. destruct Hx as (x & _ & Hx). exact (HP x Hx). }
  assert (Hany := reading_anyway (fun _ => False) b r types data id pos e o q e' Hb Hr Hsig (or_introl Hit)).
  destruct Hany as [Hx|Hx]; try (intros; eapply HE; [|eassumption]; intros ? []); auto.
  right. destruct (decode_at types data id pos) as [[x0|x0| |] q0], o as [x|x| |]; try contradiction.
  - destruct Hx as (y & H1 & -> & H2). exists x0. split; [reflexivity|]. exists y. auto.
  - destruct Hx as (y & _ & []).
  - destruct Hx as (y & _ & []).
  - eauto.
  - destruct Hx as (y & _ & []).
  - destruct Hx as (y & _ & []).
Qed.

Lemma wraps_no_empty d l : wraps d l -> ~ empty_item d.
Proof.
  induction 1 as [i l|n t docs d i l Hw IH]; intros He; inversion He as [|l0 f Hf Hd| | | | |]; subst.
  destruct Hf as [<-|[]]. exact (IH Hd).
Qed.

Lemma forall2_in_r {A B} (R : A -> B -> Prop) l l' y : Forall2 R l l' -> In y l' -> exists x, In x l /\ R x y.
Proof.
  induction 1 as [|a b l l' H Hl IH]; [intros []|]. intros [<-|Hy]; [exists a; split; [left; reflexivity|exact H]|].
  destruct (IH Hy) as (x & Hx & HR). exists x. split; [right; exact Hx|exact HR].
Qed.

Lemma folds_empty y : empty_item y -> forall x, folds x y -> empty_item x.
Proof.
  induction 1 as [|l f Hf Hd IH|v f Hf Hd IH|c f Hf Hd IH|c f Hf Hd IH|l z Hf Hd IH|i l d Hf Hd IH]; intros x Hx.
  - inversion Hx. constructor.
  - inversion Hx as [|l0 l1 Hl| | | | | |]; subst; [eapply ei_struct; eauto|].
    destruct (forall2_in_r _ _ _ _ Hl Hf) as (g & Hg & Hgf). inversion Hgf as [n t docs d d' i Hdd]; subst.
    eapply ei_struct; [exact Hg|]. apply IH. exact Hdd.
  - inversion Hx as [|? ? ?|n docs l0 l1 Hl| | |i docs p n l0 l1 pd fn ft fd Hl|i docs p n l0 l1 pd fn ft fd Hl|k l0 n docs fn ft fd d i Hw]; subst.
    + eapply ei_enum; eauto.
    + destruct (forall2_in_r _ _ _ _ Hl Hf) as (g & Hg & Hgf). inversion Hgf as [n1 t docs1 d d' i Hdd]; subst.
      eapply ei_enum; [exact Hg|]. apply IH. exact Hdd.
    + destruct Hf as [<-|[]]. cbn [fd_data x_data] in *. specialize (IH (DVariant (VData n docs l0)) (fo_enum n docs l0 l1 Hl)).
      inversion IH as [| |v f Hf Hd'| | | |]; subst. eapply ei_call; [exact Hf|exact Hd'].
    + destruct Hf as [<-|[]]. cbn [fd_data x_data] in *. specialize (IH (DVariant (VData n docs l0)) (fo_enum n docs l0 l1 Hl)).
      inversion IH as [| |v f Hf Hd'| | | |]; subst. eapply ei_event; [exact Hf|exact Hd'].
    + destruct Hf as [<-|[]]. cbn [fd_data x_data] in *. exfalso. exact (wraps_no_empty _ _ Hw Hd).
  - inversion Hx; subst. eapply ei_call; eauto.
  - inversion Hx; subst. eapply ei_event; eauto.
  - inversion Hx as [| | |l0 l1 Hl| | | |]; subst; [eapply ei_tuple; eauto|].
    destruct (forall2_in_r _ _ _ _ Hl Hf) as (g & Hg & Hgf). inversion Hgf as [d d' i Hdd]; subst.
    eapply ei_tuple; [exact Hg|]. apply IH. exact Hdd.
  - inversion Hx as [| | | |j l0 l1 Hl| | |]; subst; [eapply ei_vec; eauto|].
    destruct (forall2_in_r _ _ _ _ Hl Hf) as (g & Hg & Hgf). eapply ei_vec; [exact Hg|]. apply IH. exact Hgf.
Qed.

Lemma wrapped_no_empty l s : wrap_sequence l = Some s -> ~ Exists empty_item l.
Proof.
  assert (Hu : forall w l1 r, husk_set_uint w l1 = Some r -> ~ Exists empty_item l1).
  { intros w l1. induction l1 as [|d l0 IH]; intros r Hr He; [inversion He|]. inversion He as [? ? Hd|? ? Hl]; subst.
    - destruct Hd; cbn [husk_set_uint] in Hr; discriminate.
    - cbn [husk_set_uint] in Hr. destruct d as [| | | | | |w' a sp| | | | | | | | | | | | |]; try discriminate.
      destruct sp; try discriminate. destruct (husk_set_uint w l0) eqn:Hh; [|destruct w, w'; discriminate].
      exact (IH _ eq_refl Hl). }
  assert (Hv : forall l1 i r, husk_set_vec l1 i = Some r -> ~ Exists empty_item l1).
  { intros l1. induction l1 as [|d l0 IH]; intros i r Hr He; [inversion He|]. inversion He as [? ? Hd|? ? Hl]; subst.
    - destruct Hd as [| | | | | |j l2 d Hin Hd]; cbn [husk_set_vec] in Hr; try discriminate. destruct l2; [destruct Hin|discriminate].
    - cbn [husk_set_vec] in Hr. destruct d as [| | | | | | | | | | | | | | | | | |ei s0|ei el]; try discriminate.
      + destruct s0 as [w x|]; [|discriminate]. destruct w; try discriminate.
        destruct i as [i|].
        * destruct (infos_eqb i ei); [|discriminate]. destruct (husk_set_vec l0 (Some i)) eqn:Hh; [|discriminate]. exact (IH _ _ Hh Hl).
        * destruct (husk_set_vec l0 (Some ei)) eqn:Hh; [|discriminate]. exact (IH _ _ Hh Hl).
      + destruct el; [|discriminate]. destruct (husk_set_vec l0 i) eqn:Hh; [|discriminate]. exact (IH _ _ Hh Hl). }
  unfold wrap_sequence. destruct l as [|d l]; [discriminate|].
  destruct d as [| | | | | |w a sp| | | | | | | | | | | |ei s0|ei el]; try discriminate.
  - destruct (husk_set_uint w _) eqn:Hh; [|discriminate]. intros _. exact (Hu _ _ _ Hh).
  - destruct s0 as [w x|]; [|discriminate]. destruct w; try discriminate.
    destruct (husk_set_vec _ None) eqn:Hh; [|discriminate]. intros _. exact (Hv _ _ _ Hh).
Qed.

(** In general. *)
Theorem reading_or_empty {E} (b : buffer E) r types data id pos e o q e' :
  flaky_copy b data -> flaky_registry r types -> plain_signatures types ->
  decode_as_type_at_position b r id pos e = (o, q, e') ->
  (exists x, o = Err x /\ pext x) \/
  match o, decode_at types data id pos with
  | Ok x, (Ok x0, q0) => q0 = q /\ same_reading x x0
  | Ok x, (Err _, _) => empty_item (x_data x)
  | Err _, (Ok x0, _) => empty_item (x_data x0)
  | Err _, (Err _, _) => True
  | _, _ => False
  end.
Proof.
  intros Hb Hr Hsig H.
  assert (Hany := reading_anyway empty_item b r types data id pos e o q e' Hb Hr Hsig).
  destruct Hany as [Hx|Hx]; [..|left; exact Hx|]; auto.
  - right. intros. eapply ei_enum; [left; reflexivity|]. constructor.
  - intros l Hl. apply Exists_exists in Hl. destruct Hl as (f & Hf & Hd). eapply ei_struct; eauto.
  - intros v Hl. apply Exists_exists in Hl. destruct Hl as (f & Hf & Hd). eapply ei_enum; eauto.
  - intros l Hl. apply Exists_exists in Hl. destruct Hl as (f & Hf & Hd). eapply ei_tuple; eauto.
  - intros i l Hl. destruct (wrap_sequence l) as [s|] eqn:Hw; [destruct (wrapped_no_empty _ _ Hw Hl)|].
    apply Exists_exists in Hl. destruct Hl as (f & Hf & Hd). eapply ei_vec; eauto.
  - right. assert (Hf : forall x y, folds_ext x y -> empty_item (x_data y) -> empty_item (x_data x)).
    { intros x y Hxy Hy. inversion Hxy; subst. eapply folds_empty; eauto. }
    destruct (decode_at types data id pos) as [[x0|x0| |] q0], o as [x|x| |]; try contradiction; auto.
    + destruct Hx as (y & H1 & -> & H2). split; [reflexivity|]. exists y. auto.
    + destruct Hx as (y & H1 & H2). eauto.
    + destruct Hx as (y & H1 & H2). eauto.
    + destruct Hx as (y & H1 & []).
    + destruct Hx as (y & H1 & []).
Qed.
