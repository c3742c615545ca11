(** Two runs of the decoder over two sources: the second source holds the same content
    shifted by [k] positions, the first one may fail to read (C22, C25, C26, C41). *)
From Coq Require Import Lia.
From Verif Require Import Base Compact Types Indicators Decode Spec ProofBase ProofTables ProofPeel ProofSpec SpecSource
  ProofSafe ProofSafe2 ProofFuel SpecTrack.
Local Open Scope list_scope.

Section Straight.
Variable types : list ty.

Lemma straight_det p1 el1 : straight types p1 el1 -> forall p2 el2, straight types p2 el2 ->
  forall id l1 l2, p1 = id :: l1 -> p2 = id :: l2 -> l1 = l2 /\ el1 = el2.
Proof.
  induction 1 as [id0 t n el Hl Hdef|id0 t i l0 el Hl Htr Hst IH]; intros p2 el2 H2 id l1 l2 Hp1 Hp2;
    destruct H2 as [id1 t1 n1 el1 Hl1 Hdef1|id1 t1 i1 l10 el1 Hl1 Htr1 Hst1];
    assert (id0 = id1) by congruence; subst id1; rewrite Hl in Hl1; injection Hl1 as <-.
  - rewrite Hdef in Hdef1. injection Hdef1 as _ <-. split; congruence.
  - apply transparent_false in Htr1. destruct Htr1 as (f & _ & _ & Hx). congruence.
  - apply transparent_false in Htr. destruct Htr as (f & _ & _ & Hx). congruence.
  - rewrite Htr in Htr1. injection Htr1 as <-.
    destruct (IH _ _ Hst1 i l0 l10 eq_refl eq_refl) as [<- <-]. split; congruence.
Qed.

Lemma straight_suffix path el : straight types path el -> forall a id b, path = a ++ id :: b -> straight types (id :: b) el.
Proof.
  induction 1 as [id0 t n el Hl Hdef|id0 t i l0 el Hl Htr Hst IH]; intros a id b Hp.
  - destruct a as [|x [|y a]]; try discriminate. cbn [app] in Hp. injection Hp as <- <-. econstructor; eauto.
  - destruct a as [|x a]; cbn [app] in Hp.
    + injection Hp as <- <-. econstructor; eauto.
    + apply (IH a id b). congruence.
Qed.

Lemma straight_nodup path el : straight types path el -> NoDup path.
Proof.
  induction 1 as [id0 t n el Hl Hdef|id0 t i l0 el Hl Htr Hst IH]; [repeat constructor; intros []|].
  constructor; [|exact IH]. intros Hin. apply in_split in Hin. destruct Hin as (a & b & Hab).
  assert (Hs : straight types (id0 :: b) el) by (eapply straight_suffix; eauto).
  assert (Hs2 : straight types (id0 :: i :: l0) el) by (econstructor; eauto).
  destruct (straight_det _ _ Hs _ _ Hs2 id0 b (i :: l0) eq_refl eq_refl) as [Hbl _].
  rewrite Hab in Hbl. apply (f_equal (@List.length N)) in Hbl. rewrite app_length in Hbl. cbn [List.length] in Hbl. lia.
Qed.

End Straight.

Section Track.
Context {E1 E2 : Type}.
Variable b1 : buffer E1.
Variable b2 : buffer E2.
Variable r1 : registry E1.
Variable types : list ty.
Local Notation r2 := (@portable E2 types).
Variables k lo : nat.
Variable faulty : Prop.

Definition shift_buf (x : buf_err) : buf_err :=
  match x with
  | BExternal c => BExternal c
  | DataTooShort p n => DataTooShort (p + k) n
  | OutOfRange p l => OutOfRange (p + k) (l + k)
  end.

Definition shift_err (x : parser_err) : parser_err :=
  match x with
  | PBuffer y => PBuffer (shift_buf y)
  | PRegistry y => PRegistry y
  | NoCompact p => NoCompact (p + k)
  | SomeDataNotUsedBlob p => SomeDataNotUsedBlob (p + k)
  | TypeFailure p s => TypeFailure (p + k) s
  | UnexpectedEnumVariant p => UnexpectedEnumVariant (p + k)
  end.

Hypothesis Hlen : total_len b2 = (total_len b1 + k)%nat.
Hypothesis Hbound : reg_bound r1 = List.length types.
Hypothesis Hrd : forall p n e1 e2, (lo <= p)%nat ->
  match fst (rd b1 p n e1) with
  | inl l => fst (rd b2 (p + k) n e2) = inl l
  | inr x => (faulty /\ exists c, x = BExternal c) \/ fst (rd b2 (p + k) n e2) = inr (shift_buf x)
  end.
Hypothesis Hres : forall id e,
  match fst (resolve r1 id e) with
  | inl t => lookup types id = Some t
  | inr x => (faulty /\ exists c, x = RExternal c) \/ lookup types id = None /\ x = RInternal (TypeNotResolved id)
  end.

Definition rext (x : reg_err) : Prop := exists c, x = RExternal c.

(** The first run hit a fault. *)
Definition bad {X A} (ext : X -> Prop) (o : outcome X A) : Prop :=
  faulty /\ (o = OutOfFuel \/ exists x, o = Err x /\ ext x).

Definition tracked {X A B} (ext : X -> Prop) (g : X -> X) (R : A -> B -> Prop)
    (x1 : outcome X A * nat * E1) (x2 : outcome X B * nat * E2) : Prop :=
  let '(o1, q1, _) := x1 in
  let '(o2, q2, _) := x2 in
  bad ext o1 \/
  match o1, o2 with
  | Ok a, Ok b => R a b /\ q2 = (q1 + k)%nat /\ (lo <= q1)%nat
  | Err x, Err y => y = g x
  | Panic, Panic => True
  | OutOfFuel, OutOfFuel => True
  | _, _ => False
  end.

Definition trk {X A B} (ext : X -> Prop) (g : X -> X) (R : A -> B -> Prop)
    (m1 : M E1 X A) (m2 : M E2 X B) : Prop :=
  forall p e1 e2, (lo <= p)%nat -> tracked ext g R (m1 p e1) (m2 (p + k)%nat e2).

Notation trp := (trk pext shift_err).
Notation trr := (trk rext (fun x => x)).

Lemma tracked_bad {X A B} (ext : X -> Prop) g (R : A -> B -> Prop) x1 x2 :
  bad ext (fst (fst x1)) -> tracked ext g R x1 x2.
Proof. destruct x1 as [[o1 q1] e1], x2 as [[o2 q2] e2]. intros H. left. exact H. Qed.

Definition at_pos (a b : nat) : Prop := b = (a + k)%nat /\ (lo <= a)%nat.

Lemma trk_bind {X A B C D} (ext : X -> Prop) g (R : A -> B -> Prop) (Q : C -> D -> Prop) m1 m2 f1 f2 :
  trk ext g R m1 m2 -> (forall a b, R a b -> trk ext g Q (f1 a) (f2 b)) ->
  trk ext g Q (bind m1 f1) (bind m2 f2).
Proof.
  intros Hm Hf p e1 e2 Hp. specialize (Hm p e1 e2 Hp). unfold bind, tracked in *.
  destruct (m1 p e1) as [[o1 q1] e1']. destruct (m2 (p + k)%nat e2) as [[o2 q2] e2'].
  destruct Hm as [Hbad|Hm].
  - destruct Hbad as [Hfa [-> |(x & -> & Hx)]].
    + destruct o2 as [b0|x0| |]; [destruct (f2 b0 q2 e2') as [[? ?] ?]|..]; left; split; auto.
    + destruct o2 as [b0|x0| |]; [destruct (f2 b0 q2 e2') as [[? ?] ?]|..]; left; split; auto; right; eauto.
  - destruct o1, o2; try contradiction; auto.
    destruct Hm as (HR & -> & Hq). apply (Hf _ _ HR _ e1' e2' Hq).
Qed.

Lemma trk_ret {X A B} (ext : X -> Prop) g (R : A -> B -> Prop) a b : R a b -> trk ext g R (ret a) (ret b).
Proof. intros H p e1 e2 Hp. right. auto. Qed.

Lemma trk_fail {X A B} (ext : X -> Prop) g (R : A -> B -> Prop) x y : y = g x -> trk ext g R (fail x) (fail y).
Proof. intros H p e1 e2 Hp. right. exact H. Qed.

Lemma trk_panic {X A B} (ext : X -> Prop) g (R : A -> B -> Prop) : trk ext g R panic panic.
Proof. intros p e1 e2 Hp. right. exact I. Qed.

Lemma trk_fuel {X A B} (ext : X -> Prop) g (R : A -> B -> Prop) : trk ext g R out_of_fuel out_of_fuel.
Proof. intros p e1 e2 Hp. right. exact I. Qed.

Lemma trk_get {X} (ext : X -> Prop) g : trk ext g at_pos get_pos get_pos.
Proof. intros p e1 e2 Hp. right. repeat split; auto. Qed.

Lemma trk_set {X} (ext : X -> Prop) g a b : at_pos a b -> trk ext g eq (set_pos a) (set_pos b).
Proof. intros [-> H] p e1 e2 Hp. right. repeat split; auto. Qed.

Lemma trk_map_err {X Y A B} (ext : X -> Prop) (ext' : Y -> Prop) g g' (R : A -> B -> Prop) (f : X -> Y) m1 m2 :
  trk ext g R m1 m2 -> (forall x, ext x -> ext' (f x)) -> (forall x, f (g x) = g' (f x)) ->
  trk ext' g' R (map_err f m1) (map_err f m2).
Proof.
  intros Hm He Hg p e1 e2 Hp. specialize (Hm p e1 e2 Hp). unfold map_err, tracked in *.
  destruct (m1 p e1) as [[o1 q1] e1']. destruct (m2 (p + k)%nat e2) as [[o2 q2] e2'].
  destruct Hm as [[Hfa [-> |(x & -> & Hx)]]|Hm].
  - destruct o2; left; split; auto.
  - destruct o2; left; split; eauto.
  - destruct o1, o2; try contradiction; auto. right. subst. apply Hg.
Qed.

Lemma trk_imp {X A B} (ext : X -> Prop) g (R Q : A -> B -> Prop) m1 m2 :
  trk ext g R m1 m2 -> (forall a b, R a b -> Q a b) -> trk ext g Q m1 m2.
Proof.
  intros H Hi p e1 e2 Hp. specialize (H p e1 e2 Hp). unfold tracked in *.
  destruct (m1 p e1) as [[o1 q1] e1']. destruct (m2 (p + k)%nat e2) as [[o2 q2] e2'].
  destruct H as [H|H]; [left; exact H|right]. destruct o1, o2; auto. intuition.
Qed.

Lemma trk_lift {X A} (ext : X -> Prop) g (x : A + X) : (forall y, x = inr y -> g y = y) ->
  trk ext g eq (lift x) (lift x).
Proof. intros H. destruct x; [apply trk_ret; reflexivity|apply trk_fail; symmetry; auto]. Qed.

Lemma trk_resolve id : trr (fun a b => a = b /\ lookup types id = Some a) (resolve_ty r1 id) (resolve_ty r2 id).
Proof.
  intros p e1 e2 Hp. unfold resolve_ty, tracked. specialize (Hres id e1). cbn [resolve portable]. unfold portable_resolve.
  destruct (resolve r1 id e1) as [[t|x] e1']; cbn [fst] in Hres.
  - rewrite Hres. right. auto.
  - destruct Hres as [[Hf (c & ->)]|[-> ->]].
    + destruct (lookup types id); (left; split; [exact Hf|]; right; eexists; split; [reflexivity|]; exists c; reflexivity).
    + right. reflexivity.
Qed.

Lemma trk_reg {A B} (R : A -> B -> Prop) m1 m2 : trr R m1 m2 -> trp R (map_err PRegistry m1) (map_err PRegistry m2).
Proof.
  intros H. eapply trk_map_err; [exact H| |reflexivity]. intros x (c & ->). right. exists c. reflexivity.
Qed.

Lemma trk_lift_int {A} (x : A + int_err) : trr eq (lift_int x) (lift_int x).
Proof.
  unfold lift_int. destruct x as [a|x]; intros p e1 e2 Hp; right; cbn; auto.
Qed.

Lemma trk_lift_p {A} (x : A + int_err) : trp eq (lift_p x) (lift_p x).
Proof. unfold lift_p. destruct x as [a|x]; intros p e1 e2 Hp; right; cbn; auto. Qed.

Lemma trk_reject c : trp eq (reject_compact_m c) (reject_compact_m c).
Proof. unfold reject_compact_m. destruct (reject_compact c) as [a|x]; intros p e1 e2 Hp; right; cbn; auto. Qed.

Lemma trk_slice a b n : at_pos a b -> trp eq (read_slice b1 a n) (read_slice b2 b n).
Proof.
  intros [-> Ha] p e1 e2 Hp. unfold read_slice, tracked. specialize (Hrd a n e1 e2 Ha).
  destruct (rd b1 a n e1) as [[l|x] e1'], (rd b2 (a + k) n e2) as [[l2|x2] e2']; cbn [fst] in Hrd.
  - right. repeat split; auto; congruence.
  - discriminate.
  - destruct Hrd as [[Hf (c & ->)]|H]; [|discriminate]. left. split; auto. right. eexists; split; [reflexivity|].
    left. exists c. reflexivity.
  - destruct Hrd as [[Hf (c & ->)]|H]; [left|right; cbn; congruence]. split; auto. right. eexists; split; [reflexivity|].
    left. exists c. reflexivity.
Qed.

Lemma trk_byte a b : at_pos a b -> trp eq (read_byte b1 a) (read_byte b2 b).
Proof.
  intros H. unfold read_byte. eapply trk_bind; [apply trk_slice, H|]. intros l ? <-.
  destruct l as [|x [|]]; try apply trk_panic. apply trk_ret. reflexivity.
Qed.

Lemma at_add a b n : at_pos a b -> at_pos (a + n) (b + n).
Proof. intros [-> H]. split; lia. Qed.

(** *** Compacts *)

Lemma trk_find_loop w a b n : at_pos a b -> forall i,
  trp (fun x y => match x, y with
       | Some (v, q), Some (v', q') => v = v' /\ at_pos q q' | None, None => True | _, _ => False end)
    (find_loop w b1 a n i) (find_loop w b2 b n i).
Proof.
  intros Ha. induction n as [|n IH]; intros i; cbn [find_loop]; [apply trk_ret; exact I|].
  destruct (_ <? _)%nat; [apply trk_ret; exact I|].
  eapply trk_bind; [apply trk_slice, Ha|]. intros l ? <-. destruct (compact_decode w l).
  - apply trk_ret. split; [reflexivity|]. rewrite <- !Nat.add_assoc. apply at_add, Ha.
  - apply IH.
Qed.

Lemma trk_find_compact w a b : at_pos a b ->
  trp (fun x y => fst x = fst y /\ at_pos (snd x) (snd y)) (find_compact w b1 a) (find_compact w b2 b).
Proof.
  intros Ha. unfold find_compact. rewrite Hlen. pose proof Ha as [Hab _].
  replace (total_len b1 + k <? b)%nat with (total_len b1 <? a)%nat
    by (destruct (Nat.ltb_spec (total_len b1) a), (Nat.ltb_spec (total_len b1 + k) b); lia).
  replace (total_len b1 + k - b)%nat with (total_len b1 - a)%nat by lia.
  destruct (total_len b1 <? a)%nat; [apply trk_fail; cbn; subst; reflexivity|].
  eapply trk_bind; [apply trk_find_loop, Ha|]. intros [[v q]|] [[v' q']|] H; try contradiction.
  - apply trk_ret. exact H.
  - apply trk_fail. cbn. subst. reflexivity.
Qed.

Lemma trk_get_compact w : trp eq (get_compact w b1) (get_compact w b2).
Proof.
  unfold get_compact. eapply trk_bind; [apply trk_get|]. intros a b Ha.
  eapply trk_bind; [apply trk_find_compact, Ha|]. intros [v q] [v' q'] [H1 H2]. cbn [fst snd] in *.
  eapply trk_bind; [apply trk_set, H2|]. intros _ _ _. apply trk_ret. exact H1.
Qed.

(** *** Leaves *)

Lemma trk_exact n : trp eq (read_exact b1 n) (read_exact b2 n).
Proof.
  unfold read_exact. eapply trk_bind; [apply trk_get|]. intros a b Ha.
  eapply trk_bind; [apply trk_slice, Ha|]. intros l ? <-.
  destruct (_ =? _)%N; [apply trk_ret; reflexivity|apply trk_panic].
Qed.

Lemma trk_shift n : trp eq (shift_pos n) (shift_pos n).
Proof.
  unfold shift_pos. eapply trk_bind; [apply trk_get|]. intros a b Ha. apply trk_set, at_add, Ha.
Qed.

Lemma trk_cut {A} n name (f : bytes -> option A) : trp eq (cut_and_decode b1 n name f) (cut_and_decode b2 n name f).
Proof.
  unfold cut_and_decode. eapply trk_bind; [apply trk_get|]. intros a b Ha.
  eapply trk_bind; [apply trk_exact|]. intros l ? <-. destruct (f l).
  - eapply trk_bind; [apply trk_shift|]. intros _ _ _. apply trk_ret. reflexivity.
  - apply trk_fail. destruct Ha as [-> _]. reflexivity.
Qed.

Lemma trk_block {A} c (m1 : M E1 parser_err A) m2 : trp eq m1 m2 -> trp eq (block_compact c m1) (block_compact c m2).
Proof. intros H. unfold block_compact. destruct (compact_at c); [apply trk_fail; reflexivity|exact H]. Qed.

Lemma trk_then {X A B C} (ext : X -> Prop) g (f : A -> B -> C) (m1 : M E1 X A) m2 (z : B) : trk ext g eq m1 m2 ->
  trk ext g eq (do v <- m1; ret (f v z)) (do v <- m2; ret (f v z)).
Proof. intros H. eapply trk_bind; [exact H|]. intros a ? <-. apply trk_ret. reflexivity. Qed.

Lemma trk_str h : trp eq (decode_str b1 h) (decode_str b2 h).
Proof.
  unfold decode_str. eapply trk_bind; [apply trk_get|]. intros a b Ha.
  eapply trk_bind; [apply trk_find_compact, Ha|]. intros [v q] [v' q'] [H1 H2]. cbn [fst snd] in *. subst v'.
  eapply trk_bind; [apply trk_slice, H2|]. intros l ? <-. destruct (utf8_valid l).
  - eapply trk_bind; [apply trk_set, at_add, H2|]. intros _ _ _. apply trk_ret. reflexivity.
  - apply trk_fail. destruct Ha as [-> _]. reflexivity.
Qed.

Ltac leaf := eapply trk_bind; [apply trk_cut|]; intros ? ? <-; apply trk_ret; reflexivity.

Lemma trk_uint w c : trp eq (parse_uint b1 w c) (parse_uint b2 w c).
Proof.
  unfold parse_uint. eapply trk_bind with (R := eq); [|intros ? ? <-; apply trk_ret; reflexivity].
  destruct (compact_at c); [apply trk_get_compact|apply trk_cut].
Qed.

Lemma trk_primitive x c : trp eq (decode_primitive b1 x c) (decode_primitive b2 x c).
Proof.
  destruct x; cbn [decode_primitive]; try (apply trk_block; leaf).
  - eapply trk_bind; [apply trk_reject|]. intros _ _ _. apply trk_str.
  - apply trk_uint.
Qed.

Lemma trk_per x c : trp eq (parse_per b1 x c) (parse_per b2 x c).
Proof.
  unfold parse_per. eapply trk_bind with (R := eq); [|intros ? ? <-; apply trk_ret; reflexivity].
  destruct (compact_at c); [|apply trk_cut]. eapply trk_bind; [apply trk_get_compact|].
  intros ? ? <-; apply trk_ret; reflexivity.
Qed.

Lemma trk_fixed x c : trp eq (parse_fixed b1 x c) (parse_fixed b2 x c).
Proof. apply trk_block. leaf. Qed.

Lemma trk_h256 s : trp eq (special_case_h256 b1 s) (special_case_h256 b2 s).
Proof. unfold special_case_h256. leaf. Qed.

Lemma trk_era : trp eq (special_case_era b1) (special_case_era b2).
Proof.
  unfold special_case_era. eapply trk_bind; [apply trk_get|]. intros a b Ha.
  eapply trk_bind; [apply trk_slice, Ha|]. intros l ? <-. destruct (era_decode_all l).
  - eapply trk_bind; [apply trk_set, at_add, Ha|]. intros _ _ _. apply trk_ret. reflexivity.
  - eapply trk_bind; [apply trk_slice, Ha|]. intros l2 ? <-. destruct (era_decode_all l2).
    + eapply trk_bind; [apply trk_set, at_add, Ha|]. intros _ _ _. apply trk_ret. reflexivity.
    + apply trk_fail. destruct Ha as [-> _]. reflexivity.
Qed.

Lemma trk_bit_order order id : trr eq (find_bit_order_ty r1 order id) (find_bit_order_ty r2 order id).
Proof.
  unfold find_bit_order_ty. eapply trk_bind; [apply trk_resolve|]. intros t ? [<- Ht].
  destruct (t_def t); try (apply trk_fail; reflexivity).
  destruct (path_ident (t_path t)); [|apply trk_fail; reflexivity].
  destruct (String.eqb _ _); [apply trk_ret; reflexivity|].
  destruct (String.eqb _ _); [apply trk_ret; reflexivity|apply trk_fail; reflexivity].
Qed.

Lemma trk_bitvec n : trp eq (into_bitvec_decode b1 n) (into_bitvec_decode b2 n).
Proof.
  unfold into_bitvec_decode. eapply trk_bind; [apply trk_get|]. intros a b Ha.
  eapply trk_bind with (R := fun x y => snd x = snd y).
  { unfold bitvec_positions. eapply trk_bind; [apply trk_find_compact, Ha|].
    intros [v q] [v' q'] [H1 H2]. cbn [fst snd] in *. subst v'. apply trk_ret. cbn [snd].
    destruct Ha as [-> _], H2 as [-> _]. f_equal. f_equal. lia. }
  intros [[? ?] x] [[? ?] y] H. cbn [snd] in H. subst y.
  eapply trk_bind; [apply trk_slice, Ha|]. intros l ? <-.
  eapply trk_bind; [apply trk_set, at_add, Ha|]. intros _ _ _. apply trk_ret. reflexivity.
Qed.

Lemma trk_bits store order id : trp eq (decode_bit_sequence b1 r1 store order id) (decode_bit_sequence b2 r2 store order id).
Proof.
  unfold decode_bit_sequence. eapply trk_bind; [apply trk_get|]. intros a b Ha.
  eapply trk_bind; [apply trk_reg, trk_bit_order|]. intros o ? <-.
  eapply trk_bind; [apply trk_reg, trk_resolve|]. intros t ? [<- Ht].
  assert (Hw : forall w, trp eq (do l <- into_bitvec_decode b1 (N.of_nat (usize w));
      match bitvec_decode_all w o l with
      | Some bits => ret (DBitVec w o bits)
      | None => fail (TypeFailure a (bitvec_name w o)) end)
     (do l <- into_bitvec_decode b2 (N.of_nat (usize w));
      match bitvec_decode_all w o l with
      | Some bits => ret (DBitVec w o bits)
      | None => fail (TypeFailure b (bitvec_name w o)) end)).
  { intros w. eapply trk_bind; [apply trk_bitvec|]. intros l ? <-. destruct (bitvec_decode_all w o l).
    - apply trk_ret. reflexivity.
    - apply trk_fail. destruct Ha as [-> _]. reflexivity. }
  destruct (t_def t); try (apply trk_fail; reflexivity).
  destruct p as [| | |w| | |]; try (apply trk_fail; reflexivity).
  destruct w; try apply Hw. apply trk_fail. reflexivity.
Qed.

Definition same_husk (a b : husked) : Prop := a = b /\ lookup types (hu_id a) = Some (hu_ty a).

Lemma trk_husk_loop fuel : forall t id c acc, lookup types id = Some t ->
  trr same_husk (husk_loop r1 fuel t id c acc) (husk_loop r2 fuel t id c acc).
Proof.
  induction fuel as [|fuel IH]; intros t id c acc Hl; cbn [husk_loop]; [apply trk_fuel|].
  assert (Hend : forall a, trr same_husk (ret (Husked a c t id)) (ret (Husked a c t id))).
  { intros a. apply trk_ret. split; [reflexivity|exact Hl]. }
  destruct (hinted_from_type t); try apply Hend.
  destruct (t_def t) as [fs| | | | | |inner|]; try apply Hend.
  - destruct fs as [|f [|]]; try apply Hend.
    eapply trk_bind; [apply trk_lift_int|]. intros c1 ? <-.
    eapply trk_bind; [apply trk_resolve|]. intros t1 ? [<- Ht1]. apply IH, Ht1.
  - eapply trk_bind; [apply trk_lift_int|]. intros _ _ _.
    eapply trk_bind; [apply trk_lift_int|]. intros c1 ? <-.
    eapply trk_bind; [apply trk_resolve|]. intros t1 ? [<- Ht1]. apply IH, Ht1.
Qed.

Lemma trk_husk id c : trr same_husk (husk_type r1 id c) (husk_type r2 id c).
Proof.
  unfold husk_type. eapply trk_bind; [apply trk_lift_int|]. intros c1 ? <-.
  eapply trk_bind; [apply trk_resolve|]. intros t ? [<- Ht]. unfold husk_fuel. rewrite Hbound. apply trk_husk_loop, Ht.
Qed.

Lemma trk_pick vs a b : at_pos a b -> trp eq (pick_variant b1 vs a) (pick_variant b2 vs b).
Proof.
  intros Ha. unfold pick_variant. eapply trk_bind; [apply trk_byte, Ha|]. intros x ? <-.
  destruct (find_variant vs x); [apply trk_ret; reflexivity|].
  apply trk_fail. destruct Ha as [-> _]. reflexivity.
Qed.

(** *** The decoder *)

Section Step.
Variable d1 : ty_input -> propagated -> M E1 parser_err (ext pdata).
Variable d2 : ty_input -> propagated -> M E2 parser_err (ext pdata).
Definition inp_ok (i : ty_input) : Prop :=
  match i with Resolved t id => lookup types id = Some t | Symbol _ => True end.
Hypothesis Hd : forall i p, inp_ok i -> trp eq (d1 i p) (d2 i p).

Lemma trk_fields_loop fs c : trp eq (fields_loop d1 fs c) (fields_loop d2 fs c).
Proof.
  induction fs as [|f fs IH]; cbn [fields_loop]; [apply trk_ret; reflexivity|].
  eapply trk_bind; [apply trk_lift_p|]. intros p ? <-.
  eapply trk_bind; [apply Hd; exact I|]. intros x ? <-.
  eapply trk_bind; [apply IH|]. intros tl ? <-. apply trk_ret. reflexivity.
Qed.

Lemma trk_fields fs c : trp eq (decode_fields d1 fs c) (decode_fields d2 fs c).
Proof.
  unfold decode_fields. destruct fs as [|f [|g fs]]; try apply trk_fields_loop.
  eapply trk_bind; [apply trk_reject|]. intros _ _ _. apply trk_fields_loop.
Qed.

Lemma trk_variant vs : trp eq (decode_variant b1 d1 vs) (decode_variant b2 d2 vs).
Proof.
  unfold decode_variant. eapply trk_bind; [apply trk_get|]. intros a b Ha.
  eapply trk_bind; [apply trk_pick, Ha|]. intros v ? <-.
  eapply trk_bind; [apply trk_set, at_add, Ha|]. intros _ _ _.
  eapply trk_bind; [apply trk_fields|]. intros fs ? <-. apply trk_ret. reflexivity.
Qed.

Lemma trk_elements_loop n hu : lookup types (hu_id hu) = Some (hu_ty hu) ->
  trp eq (elements_loop d1 n hu) (elements_loop d2 n hu).
Proof.
  intros Hl. induction n as [|n IH]; cbn [elements_loop]; [apply trk_ret; reflexivity|].
  eapply trk_bind; [apply Hd, Hl|]. intros x ? <-.
  eapply trk_bind; [apply IH|]. intros tl ? <-. apply trk_ret. reflexivity.
Qed.

Lemma trk_elements el n p : trp eq (decode_elements_set r1 d1 el n p) (decode_elements_set r2 d2 el n p).
Proof.
  unfold decode_elements_set. eapply trk_bind; [apply trk_reject|]. intros _ _ _.
  eapply trk_bind; [apply trk_reg, trk_husk|]. intros hu ? [<- Hl].
  destruct (n =? 0)%N; [apply trk_ret; reflexivity|].
  eapply trk_bind; [apply trk_elements_loop, Hl|]. intros out ? <-. apply trk_ret. reflexivity.
Qed.

Lemma trk_tuple_loop ids c : trp eq (tuple_loop r1 d1 ids c) (tuple_loop r2 d2 ids c).
Proof.
  induction ids as [|i ids IH]; cbn [tuple_loop]; [apply trk_ret; reflexivity|].
  eapply trk_bind; [apply trk_reg, trk_resolve|]. intros t ? [<- Ht].
  eapply trk_bind; [apply trk_lift_p|]. intros p ? <-.
  eapply trk_bind; [apply Hd; assumption|]. intros x ? <-.
  eapply trk_bind; [apply IH|]. intros tl ? <-. apply trk_ret. reflexivity.
Qed.

Lemma trk_plain t id p : trp eq (decode_plain b1 r1 d1 t id p) (decode_plain b2 r2 d2 t id p).
Proof.
  unfold decode_plain. destruct (t_def t) as [fs|vs|el|n el|ids|x|inner|s o].
  - eapply trk_bind; [apply trk_fields|]. intros l ? <-. apply trk_ret. reflexivity.
  - eapply trk_bind; [apply trk_reject|]. intros _ _ _.
    destruct vs as [|v vs]; [apply trk_ret; reflexivity|].
    eapply trk_bind; [apply trk_variant|]. intros l ? <-. apply trk_ret. reflexivity.
  - eapply trk_bind; [apply trk_get_compact|]. intros n ? <-. apply trk_elements.
  - apply trk_elements.
  - destruct ids as [|i [|j ids]]; try (eapply trk_bind; [apply trk_tuple_loop|]; intros l ? <-; apply trk_ret; reflexivity).
    eapply trk_bind; [apply trk_reject|]. intros _ _ _.
    eapply trk_bind; [apply trk_tuple_loop|]. intros l ? <-. apply trk_ret. reflexivity.
  - eapply trk_bind; [apply trk_primitive|]. intros l ? <-. apply trk_ret. reflexivity.
  - eapply trk_bind; [apply trk_reject|]. intros _ _ _.
    eapply trk_bind; [apply trk_lift_p|]. intros c ? <-. apply Hd. exact I.
  - eapply trk_bind; [apply trk_reject|]. intros _ _ _.
    eapply trk_bind; [apply trk_bits|]. intros l ? <-. apply trk_ret. reflexivity.
Qed.

Lemma trk_checked c t id p : trp eq (decode_checked b1 r1 d1 c t id p) (decode_checked b2 r2 d2 c t id p).
Proof.
  destruct c as [|f| | |n i vs it|f]; cbn [decode_checked].
  - apply trk_plain.
  - eapply trk_bind; [apply trk_fixed|]. intros l ? <-. apply trk_ret. reflexivity.
  - eapply trk_bind; [apply trk_reject|]. intros _ _ _.
    eapply trk_bind; [apply trk_era|]. intros l ? <-. apply trk_ret. reflexivity.
  - eapply trk_bind; [apply trk_reject|]. intros _ _ _.
    eapply trk_bind; [apply trk_h256|]. intros l ? <-. apply trk_ret. reflexivity.
  - eapply trk_bind; [apply trk_reject|]. intros _ _ _.
    eapply trk_bind; [apply trk_variant|]. intros l ? <-. apply trk_ret. reflexivity.
  - eapply trk_bind; [apply trk_per|]. intros l ? <-. apply trk_ret. reflexivity.
Qed.
End Step.

(** *** Persistent faults *)

Hypothesis Hrd_pers : forall p n e e' c, fst (rd b1 p n e) = inr (BExternal c) ->
  exists c', fst (rd b1 p n e') = inr (BExternal c').
Hypothesis Hres_pers : forall id e e' c, fst (resolve r1 id e) = inr (RExternal c) ->
  exists c', fst (resolve r1 id e') = inr (RExternal c').

Definition dead_type (id : N) : Prop := forall e, exists c, fst (resolve r1 id e) = inr (RExternal c).
Definition dead_byte (p : nat) : Prop := forall e, exists c, fst (rd b1 p 1 e) = inr (BExternal c).

Definition is_bad {A} (x : outcome parser_err A * nat * E1) : Prop := bad pext (fst (fst x)).

Lemma bad_bind {A B} (m : M E1 parser_err A) (f : A -> M E1 parser_err B) p e :
  is_bad (m p e) -> is_bad (bind m f p e).
Proof.
  unfold is_bad, bad, bind. destruct (m p e) as [[o q] e']. cbn [fst].
  intros [Hf [-> |(x & -> & Hx)]]; split; cbn [fst]; auto. right. eauto.
Qed.

Lemma bad_resolve id p e : faulty -> dead_type id -> is_bad (map_err PRegistry (resolve_ty r1 id) p e).
Proof.
  intros Hf Hd. unfold is_bad, bad, map_err, resolve_ty. destruct (Hd e) as (c & Hc).
  destruct (resolve r1 id e) as [x e']. cbn [fst] in Hc. subst x. cbn [fst]. split; [exact Hf|right].
  eexists. split; [reflexivity|]. right. exists c. reflexivity.
Qed.

Lemma resolve_cases id p e :
  (exists t e', lookup types id = Some t /\ resolve_ty r1 id p e = (Ok t, p, e')) \/
  (exists c e', faulty /\ dead_type id /\ resolve_ty r1 id p e = (Err (RExternal c), p, e')) \/
  (exists e', lookup types id = None /\ resolve_ty r1 id p e = (Err (RInternal (TypeNotResolved id)), p, e')).
Proof.
  unfold resolve_ty. pose proof (Hres id e) as H. pose proof (Hres_pers id e) as Hp.
  destruct (resolve r1 id e) as [[t|x] e'] eqn:He; cbn [fst] in *.
  - left. eauto.
  - destruct H as [[Hf (c & ->)]|[H ->]]; right; [left|right]; eauto.
    exists c, e'. repeat split; auto. intros e0. apply (Hp e0 c). reflexivity.
Qed.



Lemma bad_bind_ok {A B} (m : M E1 parser_err A) (f : A -> M E1 parser_err B) p e a q e' :
  m p e = (Ok a, q, e') -> is_bad (f a q e') -> is_bad (bind m f p e).
Proof. intros H. unfold bind. rewrite H. auto. Qed.

Lemma resolve_not_dead id p e t q e' : resolve_ty r1 id p e = (Ok t, q, e') -> ~ dead_type id.
Proof.
  unfold resolve_ty. intros H Hd. destruct (Hd e) as (c & Hc).
  destruct (resolve r1 id e) as [x e1]. cbn [fst] in Hc. subst x. discriminate.
Qed.

Lemma add_info_checker P i : checker_of (add_info P i) = checker_of P.
Proof. unfold add_info. destruct (info_is_empty i); reflexivity. Qed.

Lemma reject_none c p (e : E1) : compact_at c = None -> reject_compact_m c p e = (Ok tt, p, e).
Proof. intros H. unfold reject_compact_m, reject_compact. rewrite H. reflexivity. Qed.

Lemma check_id_fresh c id : ~ In id (cycle_check c) ->
  check_id c id = inl (Checker (compact_at c) (c_hint c) (cycle_check c ++ [id])).
Proof.
  intros H. unfold check_id. destruct (existsb (N.eqb id) (cycle_check c)) eqn:He; [|reflexivity].
  apply existsb_exists in He. destruct He as (x & Hx & Hi). apply N.eqb_eq in Hi. subst x. contradiction.
Qed.

Lemma update_fresh c f : ~ In (f_ty f) (cycle_check c) -> exists c', update_for_field c f = inl c' /\
  cycle_check c' = cycle_check c ++ [f_ty f] /\ compact_at c' = compact_at c.
Proof.
  intros H. unfold update_for_field.
  assert (Hcc : cycle_check match c_hint c with HNone => with_hint c (hint_from_field f) | _ => c end = cycle_check c)
    by (destruct (c_hint c); reflexivity).
  rewrite check_id_fresh by (rewrite Hcc; exact H). eexists. split; [reflexivity|]. rewrite Hcc. split; [reflexivity|].
  destruct (c_hint c); reflexivity.
Qed.

(** A straight path with an unreadable type on it is never decoded. *)
Lemma fatal path el : straight types path el -> forall cyc id l, path = id :: l -> NoDup (cyc ++ path) -> faulty ->
  Forall (fun i => ~ dead_type i) cyc ->
  ((exists i, In i path /\ dead_type i) \/ dead_type el) ->
  forall fuel P p e, cycle_check (checker_of P) = cyc ++ [id] -> compact_at (checker_of P) = None ->
  is_bad (decode b1 r1 fuel (Symbol id) P p e).
Proof.
  induction 1 as [id0 t n el Hl Hdef|id0 t i l0 el Hl Htr Hst IH]; intros cyc id l Hp Hn Hf Hnd Hdead fuel P p e Hcyc Hcpt;
    assert (Hid : id = id0) by congruence; subst id.
  all: destruct fuel as [|fuel]; [split; [exact Hf|left; reflexivity]|].
  all: cbn [decode]; unfold decode_body.
  all: destruct (resolve_cases id0 p e) as [(t' & e' & Hl' & Hr)|[(c & e' & _ & Hdt & Hr)|(e' & Hl' & Hr)]];
    [|apply bad_bind, bad_bind, bad_resolve; assumption|congruence].
  all: rewrite Hl in Hl'; injection Hl' as <-.
  all: assert (Hstep : bind (map_err PRegistry (resolve_ty r1 id0)) (fun t0 => ret (t0, id0)) p e = (Ok (t, id0), p, e'))
       by (unfold bind, map_err; rewrite Hr; reflexivity).
  all: eapply bad_bind_ok; [exact Hstep|]; cbv beta iota.
  - assert (Hck : checked_from_type b1 r1 t p e' = (Ok CNone, p, e')).
    { unfold checked_from_type. rewrite hinted_classify. unfold hinted_of. unfold def_of in Hdef.
      destruct (classify t); try discriminate; injection Hdef as ->; try reflexivity.
      destruct (strs_eqb _ _); reflexivity. }
    eapply bad_bind_ok; [exact Hck|]. cbn [decode_checked].
    assert (Hdef2 : t_def t = TArray n el) by (unfold def_of in Hdef; destruct (classify t); congruence).
    unfold decode_plain. rewrite Hdef2. unfold decode_elements_set. rewrite add_info_checker.
    eapply bad_bind_ok; [apply reject_none, Hcpt|]. apply bad_bind.
    pose proof (resolve_not_dead _ _ _ _ _ _ Hr) as Hnd0.
    assert (Hel : dead_type el).
    { destruct Hdead as [(j & [<- |[] ] & Hj)|Hel]; [contradiction|exact Hel]. }
    assert (Hfr : ~ In el (cycle_check (checker_of P))).
    { rewrite Hcyc. intros Hin. apply in_app_or in Hin. destruct Hin as [Hin|[<- |[] ] ]; [|contradiction].
      rewrite Forall_forall in Hnd. exact (Hnd _ Hin Hel). }
    pose proof (bad_resolve el p e' Hf Hel) as Hb. unfold is_bad, map_err, husk_type, bind in *.
    rewrite (check_id_fresh _ _ Hfr). cbn [lift_int map_err lift ret].
    unfold lift_int, map_err, lift, ret.
    destruct (resolve_ty r1 el p e') as [[[?|?| |] ?] ?]; cbn [fst] in *;
      destruct Hb as [_ [Hx|(y & Hx & Hy)]]; try discriminate; split; auto.
    right. injection Hx as <-. eauto.
  - destruct (transparent_false _ _ Htr) as (f & Hdf & -> & Hdf2).
    assert (Hck : checked_from_type b1 r1 t p e' = (Ok CNone, p, e')).
    { unfold checked_from_type. rewrite hinted_classify. unfold hinted_of. rewrite (transparent_plain _ _ Htr).
      destruct (strs_eqb _ _); reflexivity. }
    eapply bad_bind_ok; [exact Hck|]. cbn [decode_checked].
    unfold decode_plain. rewrite Hdf, add_info_checker. apply bad_bind. unfold decode_fields. cbn [fields_loop].
    pose proof (resolve_not_dead _ _ _ _ _ _ Hr) as Hnd0.
    assert (Hfr : ~ In (f_ty f) (cycle_check (checker_of P))).
    { rewrite Hcyc. intros Hin. apply (NoDup_remove_2 (cyc ++ [id0]) l0 (f_ty f)).
      - rewrite <- app_assoc. exact Hn.
      - apply in_or_app. left. exact Hin. }
    destruct (update_fresh _ _ Hfr) as (c' & Hu & Hcy & Hco).
    eapply bad_bind_ok.
    { unfold for_field. rewrite Hu. reflexivity. }
    apply bad_bind. eapply IH with (cyc := cyc ++ [id0]); try reflexivity.
    + rewrite <- app_assoc. exact Hn.
    + exact Hf.
    + apply Forall_app. split; [exact Hnd|]. constructor; [exact Hnd0|constructor].
    + destruct Hdead as [(j & [<- |Hj] & Hd)|Hel]; [contradiction|left; eauto|right; exact Hel].
    + cbn [with_checker checker_of]. rewrite Hcy, Hcyc. reflexivity.
    + cbn [with_checker checker_of]. rewrite Hco. exact Hcpt.
Qed.

Lemma husk_dead path el : straight types path el -> forall id l, path = id :: l ->
  forall fuel t c acc p e x q e', lookup types id = Some t ->
  husk_loop r1 fuel t id c acc p e = (Err x, q, e') -> rext x -> exists i, In i l /\ dead_type i.
Proof.
  induction 1 as [id0 t n el Hl Hdef|id0 t i l0 el Hl Htr Hst IH]; intros id l Hp fuel t0 c acc p e x q e' Hl0 Hh Hx;
    assert (Hid : id = id0) by congruence; subst id; rewrite Hl in Hl0; injection Hl0 as <-;
    (destruct fuel as [|fuel]; [discriminate|]); cbn [husk_loop] in Hh.
  - exfalso. unfold def_of in Hdef. assert (Hd : t_def t = TArray n el) by (destruct (classify t); congruence).
    rewrite Hd in Hh. destruct (hinted_from_type t); discriminate.
  - destruct (transparent_false _ _ Htr) as (f & Hdf & -> & Hdf2). assert (Hll : l = f_ty f :: l0) by congruence. subst l.
    assert (Hhint : hinted_from_type t = HtNone).
    { rewrite hinted_classify. unfold hinted_of. rewrite (transparent_plain _ _ Htr).
      pose proof Htr as Htr2. unfold transparent in Htr2. rewrite (transparent_plain _ _ Htr) in Htr2.
      destruct (strs_eqb (t_path t) opaque_path); [discriminate|reflexivity]. }
    rewrite Hhint, Hdf in Hh. unfold bind at 1 in Hh. unfold lift_int, map_err, lift in Hh.
    destruct (check_id c (f_ty f)) as [c1|ie]; cbn [ret fail] in Hh.
    + unfold ret, bind in Hh. destruct (resolve_cases (f_ty f) p e) as [(t1 & e1 & Hl1 & Hr)|[(cc & e1 & _ & Hdt & Hr)|(e1 & Hl1 & Hr)]];
        rewrite Hr in Hh.
      * destruct (IH _ _ eq_refl _ _ _ _ _ _ _ _ _ Hl1 Hh Hx) as (j & Hj & Hdj). exists j. split; [right; exact Hj|exact Hdj].
      * exists (f_ty f). split; [left; reflexivity|exact Hdt].
      * exfalso. injection Hh as <- _ _. destruct Hx as (? & Hx). discriminate.
    + exfalso. unfold fail in Hh. injection Hh as <- _ _. destruct Hx as (? & Hx). discriminate.
Qed.

Lemma husk_array path el : straight types path el -> forall id l, path = id :: l ->
  forall fuel t c acc p e hu q e', lookup types id = Some t ->
  husk_loop r1 fuel t id c acc p e = (Ok hu, q, e') -> exists n, t_def (hu_ty hu) = TArray n el.
Proof.
  induction 1 as [id0 t n el Hl Hdef|id0 t i l0 el Hl Htr Hst IH]; intros id l Hp fuel t0 c acc p e hu q e' Hl0 Hh;
    assert (Hid : id = id0) by congruence; subst id; rewrite Hl in Hl0; injection Hl0 as <-;
    (destruct fuel as [|fuel]; [discriminate|]); cbn [husk_loop] in Hh.
  - unfold def_of in Hdef. assert (Hd : t_def t = TArray n el) by (destruct (classify t); congruence).
    rewrite Hd in Hh. exists n. destruct (hinted_from_type t); injection Hh as <- _ _; exact Hd.
  - destruct (transparent_false _ _ Htr) as (f & Hdf & -> & Hdf2). assert (Hll : l = f_ty f :: l0) by congruence. subst l.
    assert (Hhint : hinted_from_type t = HtNone).
    { rewrite hinted_classify. unfold hinted_of. rewrite (transparent_plain _ _ Htr).
      pose proof Htr as Htr2. unfold transparent in Htr2. rewrite (transparent_plain _ _ Htr) in Htr2.
      destruct (strs_eqb (t_path t) opaque_path); [discriminate|reflexivity]. }
    rewrite Hhint, Hdf in Hh. unfold bind at 1 in Hh. unfold lift_int, map_err, lift in Hh.
    destruct (check_id c (f_ty f)) as [c1|ie]; cbn [ret fail] in Hh; [|discriminate].
    unfold ret, bind in Hh. destruct (resolve_cases (f_ty f) p e) as [(t1 & e1 & Hl1 & Hr)|[(cc & e1 & _ & Hdt & Hr)|(e1 & Hl1 & Hr)]];
        rewrite Hr in Hh; try discriminate.
    exact (IH _ _ eq_refl _ _ _ _ _ _ _ _ _ Hl1 Hh).
Qed.


Lemma sig_mem f p (e : E2) : signature_from_field r2 f p e = (Ok (sig_kind (bare_signature types f)), p, e).
Proof.
  pose proof (signature_from_field_okf types (E := E2) f p e) as H.
  pose proof (signature_from_field_post (@slice_buffer E2 []) r2 (good_portable types) f p e) as Hp.
  unfold post in Hp. destruct H as [H|(y & z & H)]; [exact H|]. rewrite H in Hp. destruct Hp as [_ []].
Qed.

(** Some type on the way from [id] to the bytes of a straight array cannot be read. *)
Definition broken (id : N) : Prop :=
  forall l el, straight types (id :: l) el -> (exists i, In i (id :: l) /\ dead_type i) \/ dead_type el.

Lemma sig_track f p e1 (e2 : E2) : (lo <= p)%nat ->
  let '(o, q, _) := signature_from_field r1 f p e1 in
  bad pext o \/ (q = p /\ (o = Ok (sig_kind (bare_signature types f)) \/ faulty /\ o = Ok SigNone /\ broken (f_ty f))).
Proof.
  intros Hp. pose proof (sig_mem f (p + k)%nat e2) as H2.
  pose proof (trk_husk (f_ty f) checker_new p e1 e2 Hp) as Hh. unfold tracked in Hh.
  assert (Hbr : forall x q e', husk_type r1 (f_ty f) checker_new p e1 = (Err x, q, e') -> rext x -> broken (f_ty f)).
  { intros x q e' Hx Hr l el Hst. left. unfold husk_type in Hx. unfold bind at 1 in Hx. unfold lift_int, map_err, lift in Hx.
    rewrite check_id_fresh in Hx by (intros []). unfold ret, bind in Hx.
    destruct (resolve_cases (f_ty f) p e1) as [(t1 & e1' & Hl1 & Hr1)|[(cc & e1' & _ & Hdt & Hr1)|(e1' & Hl1 & Hr1)]]; rewrite Hr1 in Hx.
    - destruct (husk_dead _ _ Hst _ _ eq_refl _ _ _ _ _ _ _ _ _ Hl1 Hx Hr) as (i & Hi & Hd). exists i. split; [right|]; assumption.
    - exists (f_ty f). split; [left; reflexivity|assumption].
    - injection Hx as <- _ _. destruct Hr as (? & Hr). discriminate. }
  assert (Har : forall hu q e' l el, husk_type r1 (f_ty f) checker_new p e1 = (Ok hu, q, e') ->
            straight types (f_ty f :: l) el -> exists n, t_def (hu_ty hu) = TArray n el).
  { intros hu q e' l el Hx Hst. unfold husk_type in Hx. unfold bind at 1 in Hx. unfold lift_int, map_err, lift in Hx.
    rewrite check_id_fresh in Hx by (intros []). unfold ret, bind in Hx.
    destruct (resolve_cases (f_ty f) p e1) as [(t1 & e1' & Hl1 & Hr1)|[(cc & e1' & _ & Hdt & Hr1)|(e1' & Hl1 & Hr1)]];
      rewrite Hr1 in Hx; try discriminate.
    exact (husk_array _ _ Hst _ _ eq_refl _ _ _ _ _ _ _ _ _ Hl1 Hx). }
  pose proof (keeps_husk r1 (f_ty f) checker_new p e1) as Hk1.
  pose proof (keeps_husk r2 (f_ty f) checker_new (p + k)%nat e2) as Hk2.
  unfold signature_from_field in *. unfold bind at 1 in H2. unfold bind at 1. unfold catch at 1 in H2. unfold catch at 1.
  destruct (husk_type r1 (f_ty f) checker_new p e1) as [[o1 q1] e1'].
  destruct (husk_type r2 (f_ty f) checker_new (p + k)%nat e2) as [[o2 q2] e2'].
  cbn [fst snd] in Hk1, Hk2. subst q1 q2.
  destruct Hh as [[Hf [-> |(x & -> & Hx)]]|Hh].
  - left. split; auto.
  - right. cbn [ret]. unfold ret. split; [reflexivity|]. right. repeat split; auto. eapply Hbr; eauto.
  - destruct o1 as [hu|x| |], o2 as [hu2|x2| |]; try contradiction; try discriminate.
    2: { unfold ret in *. right. split; [reflexivity|]. left. congruence. }
    destruct Hh as ([<- _] & _ & _). specialize (Har hu p e1').
    assert (Hnone : forall (e1'' : E1), ret (E := E2) (X := parser_err) SigNone (p + k)%nat e2' = (Ok (sig_kind (bare_signature types f)), (p + k)%nat, e2) ->
        let '(o, q, _) := ret (E := E1) (X := parser_err) SigNone p e1'' in
        bad pext o \/ (q = p /\ (o = Ok (sig_kind (bare_signature types f)) \/ faulty /\ o = Ok SigNone /\ broken (f_ty f)))).
    { intros e1'' Hx. unfold ret in *. right. split; [reflexivity|]. left. congruence. }
    destruct (t_def (hu_ty hu)) as [| | |n elem| | | |] eqn:Hd; try (apply Hnone, H2).
    unfold bind, catch in H2 |- *. unfold resolve_ty at 1 in H2. cbn [resolve portable] in H2. unfold portable_resolve in H2.
    destruct (resolve_cases elem p e1') as [(t1 & e1'' & Hl1 & Hr1)|[(cc & e1'' & Hff & Hdt & Hr1)|(e1'' & Hl1 & Hr1)]]; rewrite Hr1.
    + rewrite Hl1 in H2.
      destruct (t_def t1) as [| | | | |[| | |[]| | |] | |]; try (unfold ret in *; right; split; [reflexivity|left; congruence]).
      destruct (f_type_name f); try (unfold ret in *; right; split; [reflexivity|left; congruence]).
      repeat match goal with |- context [if ?c then _ else _] => destruct c end; unfold ret in *; (right; split; [reflexivity|left; congruence]).
    + unfold ret. right. split; [reflexivity|]. right. repeat split; auto. intros l el Hst. right.
      destruct (Har l el eq_refl Hst) as (n' & Hn'). injection Hn' as _ <-. exact Hdt.
    + rewrite Hl1 in H2. unfold ret in *. right. split; [reflexivity|left; congruence].
Qed.


(** *** Recognised types *)

Hypothesis Hone : forall p e l, fst (rd b2 p 1 e) = inl l -> exists x, l = [x].

Lemma res_mem id q (e : E2) : resolve_ty r2 id q e =
  (match lookup types id with Some t => Ok t | None => Err (RInternal (TypeNotResolved id)) end, q, e).
Proof. unfold resolve_ty. cbn [resolve portable]. unfold portable_resolve. destruct (lookup types id); reflexivity. Qed.

Lemma pick_cases vs p e1 e2 : (lo <= p)%nat ->
  (exists v e1' e2', In v vs /\ pick_variant b1 vs p p e1 = (Ok v, p, e1') /\
     pick_variant b2 vs (p + k) (p + k)%nat e2 = (Ok v, (p + k)%nat, e2') /\
     forall e, is_bad (pick_variant b1 vs p p e) \/ exists e', pick_variant b1 vs p p e = (Ok v, p, e')) \/
  (exists x e1' y e2', pick_variant b1 vs p p e1 = (Err x, p, e1') /\
     pick_variant b2 vs (p + k) (p + k)%nat e2 = (Err y, (p + k)%nat, e2')) \/
  (exists x e1', faulty /\ dead_byte p /\ pick_variant b1 vs p p e1 = (Err x, p, e1') /\
     match fst (fst (pick_variant b2 vs (p + k) (p + k)%nat e2)) with Ok v => In v vs | Err _ => True | _ => False end /\
     snd (fst (pick_variant b2 vs (p + k) (p + k)%nat e2)) = (p + k)%nat).
Proof.
  intros Hp. pose proof (Hrd p 1 e1 e2 Hp) as H. unfold pick_variant, read_byte, bind, read_slice.
  pose proof (Hrd_pers p 1 e1) as Hpers. pose proof (Hone (p + k)%nat e2) as H1.
  assert (Hall : forall l, fst (rd b2 (p + k) 1 e2) = inl l -> forall e, (exists c, fst (rd b1 p 1 e) = inr (BExternal c) /\ faulty) \/ fst (rd b1 p 1 e) = inl l).
  { intros l Hl e. pose proof (Hrd p 1 e e2 Hp) as He. destruct (fst (rd b1 p 1 e)) as [l'|x].
    - right. congruence.
    - destruct He as [[Hf (c & ->)]|He]; [left; eauto|congruence]. }
  destruct (rd b1 p 1 e1) as [[l|x] e1'] eqn:Hr1; cbn [fst] in H, Hpers.
  - specialize (Hall l H). destruct (rd b2 (p + k) 1 e2) as [x2 e2']. cbn [fst] in H, H1. subst x2.
    destruct (H1 l eq_refl) as (i & ->). cbn [ret]. unfold ret, fail. destruct (find_variant vs i) as [v|] eqn:Hv.
    + left. exists v, e1', e2'. split; [eapply find_some; exact Hv|]. repeat split; auto.
      intros e. destruct (Hall e) as [(c & Hc & Hf)|Hc]; destruct (rd b1 p 1 e) as [y e0]; cbn [fst] in Hc; subst y.
      * left. split; [exact Hf|right]. eexists. split; [reflexivity|]. left. eauto.
      * right. rewrite Hv. eauto.
    + right; left. do 4 eexists. split; reflexivity.
  - destruct H as [[Hf (c & ->)]|H].
    + right; right. exists (PBuffer (BExternal c)), e1'. repeat split; auto.
      * intros e. apply (Hpers e c). reflexivity.
      * destruct (rd b2 (p + k) 1 e2) as [[l2|x2] e2']; cbn [fst] in *; [|exact I].
        destruct (H1 l2 eq_refl) as (i & ->). unfold ret, fail.
        destruct (find_variant vs i) eqn:Hv; cbn [fst]; [|exact I]. eapply find_some; exact Hv.
      * destruct (rd b2 (p + k) 1 e2) as [[l2|x2] e2']; cbn [fst] in *; [|reflexivity].
        destruct (H1 l2 eq_refl) as (i & ->). unfold ret, fail.
        destruct (find_variant vs i); reflexivity.
    + right; left. destruct (rd b2 (p + k) 1 e2) as [x2 e2']. cbn [fst] in H. subst x2. do 4 eexists. split; reflexivity.
Qed.

Definition doomed (vs : list variant) (p : nat) : Prop :=
  forall fuel e, is_bad (decode_variant b1 (decode b1 r1 fuel) vs p e).

Lemma doomed_byte vs p : faulty -> dead_byte p -> doomed vs p.
Proof.
  intros Hf Hd fuel e. unfold decode_variant. eapply bad_bind_ok; [reflexivity|]. apply bad_bind.
  unfold pick_variant, read_byte. do 2 apply bad_bind. unfold is_bad, read_slice. destruct (Hd e) as (c & Hc).
  destruct (rd b1 p 1 e) as [y e0]. cbn [fst] in Hc. subst y. split; [exact Hf|right]. eexists. split; [reflexivity|].
  left. eauto.
Qed.

Lemma doomed_field vs v f p : v_fields v = [f] ->
  (forall e, is_bad (pick_variant b1 vs p p e) \/ exists e', pick_variant b1 vs p p e = (Ok v, p, e')) ->
  (forall fuel P q e, cycle_check (checker_of P) = [f_ty f] -> compact_at (checker_of P) = None ->
     is_bad (decode b1 r1 fuel (Symbol (f_ty f)) P q e)) ->
  doomed vs p.
Proof.
  intros Hv Hpick Hdec fuel e. unfold decode_variant. eapply bad_bind_ok; [reflexivity|].
  destruct (Hpick e) as [Hb|(e' & He)]; [apply bad_bind, Hb|].
  eapply bad_bind_ok; [exact He|]. eapply bad_bind_ok; [reflexivity|]. apply bad_bind. rewrite Hv.
  unfold decode_fields. cbn [fields_loop].
  destruct (update_fresh checker_new f ltac:(intros [])) as (c' & Hu & Hcy & Hco).
  eapply bad_bind_ok. { unfold for_field. rewrite Hu. reflexivity. }
  apply bad_bind. apply Hdec; cbn [with_checker checker_of]; [rewrite Hcy; reflexivity|rewrite Hco; reflexivity].
Qed.

Lemma doomed_dead vs v f p : v_fields v = [f] -> faulty -> dead_type (f_ty f) ->
  (forall e, is_bad (pick_variant b1 vs p p e) \/ exists e', pick_variant b1 vs p p e = (Ok v, p, e')) ->
  doomed vs p.
Proof.
  intros Hv Hf Hd Hpick. eapply doomed_field; eauto. intros fuel P q e _ _.
  destruct fuel; [split; [exact Hf|left; reflexivity]|]. cbn [decode]. unfold decode_body.
  do 2 apply bad_bind. apply bad_resolve; assumption.
Qed.

Lemma doomed_broken vs v f p l el : v_fields v = [f] -> faulty -> broken (f_ty f) -> straight types (f_ty f :: l) el ->
  (forall e, is_bad (pick_variant b1 vs p p e) \/ exists e', pick_variant b1 vs p p e = (Ok v, p, e')) ->
  doomed vs p.
Proof.
  intros Hv Hf Hbr Hst Hpick. eapply doomed_field; eauto. intros fuel P q e Hc Hco.
  eapply (fatal _ _ Hst []); eauto. cbn [app]. eapply straight_nodup; eauto.
Qed.

Hypothesis Hsig : faulty -> straight_signatures types.

(** The first run went on as with an ordinary enum after a swallowed fault. *)
Definition swallowed (t : ty) (p : nat) (x1 : outcome parser_err checked * nat * E1)
    (x2 : outcome parser_err checked * nat * E2) : Prop :=
  faulty /\ exists c2 vs, fst (fst x1) = Ok CNone /\ snd (fst x1) = p /\ fst (fst x2) = Ok c2 /\
    t_def t = TVariant vs /\ vs <> [] /\ doomed vs p /\
    match c2 with CFixed _ | CPalletSpecific _ _ _ _ => True | _ => False end.

Lemma trk_checked_type t id p e1 e2 : lookup types id = Some t -> (lo <= p)%nat ->
  let x1 := checked_from_type b1 r1 t p e1 in
  let x2 := checked_from_type b2 r2 t (p + k)%nat e2 in
  tracked pext shift_err eq x1 x2 \/ swallowed t p x1 x2.
Proof.
  intros Hl Hp. cbv zeta. unfold checked_from_type.
  assert (Hsame : forall c (e1' : E1) (e2' : E2), tracked pext shift_err eq
            (@ret E1 parser_err checked c p e1') (@ret E2 parser_err checked c (p + k)%nat e2')).
  { intros c e1' e2'. right. auto. }
  assert (Hmove : forall c (e1' : E1) (e2' : E2), tracked pext shift_err eq
            ((set_pos (p + ENUM_INDEX_ENCODED_LEN)%nat ;; @ret E1 parser_err checked c) p e1')
            ((set_pos (p + k + ENUM_INDEX_ENCODED_LEN)%nat ;; @ret E2 parser_err checked c) (p + k)%nat e2')).
  { intros c e1' e2'. right. unfold bind, set_pos, ret, ENUM_INDEX_ENCODED_LEN. repeat split; lia. }
  destruct (hinted_from_type t) eqn:Hh; try (left; apply Hsame).
  - (* MultiSignature *)
    destruct (t_def t) as [|vs| | | | | |] eqn:Hd; try (left; apply Hsame).
    assert (Hcl : classify t = SpMultiSig).
    { rewrite hinted_classify in Hh. unfold hinted_of in Hh. destruct (classify t); try discriminate; auto.
      destruct (strs_eqb _ _); discriminate. }
    unfold bind, get_pos, catch.
    destruct (pick_cases vs p e1 e2 Hp) as [(v & e1' & e2' & Hin & H1 & H2 & Hall)|[(x & e1' & y & e2' & H1 & H2)
      |(x & e1' & Hf & Hdb & H1 & H2 & H3)]].
    + rewrite H1, H2. destruct (v_fields v) as [|f [|g fs]] eqn:Hvf; try (left; apply Hsame).
      rewrite (sig_mem f (p + k)%nat e2'). pose proof (sig_track f p e1' e2' Hp) as Hs.
      assert (Hne : vs <> []) by (intros ->; destruct Hin).
      destruct (signature_from_field r1 f p e1') as [[o q] e1'']. destruct Hs as [Hb|[-> [-> |(Hf & -> & Hbr)]]].
      * left. apply tracked_bad. destruct Hb as [Hf [-> |(y & -> & Hy)]]; split; cbn [fst]; auto. right. eauto.
      * left. destruct (sig_kind (bare_signature types f)); try apply Hmove; apply Hsame.
      * destruct (bare_signature types f) as [s|] eqn:Hbs; [|left; apply Hsame].
        destruct (Hsig Hf id t vs v f s Hl Hd Hin Hvf) as (l & el & Hst).
        { unfold variant_sig. rewrite Hcl, Hvf. exact Hbs. }
        right. split; [exact Hf|]. exists (CFixed s), vs. cbn [ret fst snd]. unfold ret. cbn [fst snd].
        repeat split; auto.
        -- destruct (bare_signature_kinds _ _ _ Hbs) as [-> | [-> | ->] ]; reflexivity.
        -- eapply doomed_broken; eauto.
    + rewrite H1, H2. left. apply Hsame.
    + rewrite H1. destruct (pick_variant b2 vs (p + k) (p + k)%nat e2) as [[o2 q2] e2']. cbn [fst snd] in H2, H3. subst q2.
      destruct o2 as [v|y| |]; try contradiction.
      * destruct (v_fields v) as [|f [|g fs]] eqn:Hvf; try (left; apply Hsame).
        rewrite (sig_mem f (p + k)%nat e2').
        destruct (bare_signature types f) as [s|] eqn:Hbs; [|left; apply Hsame].
        right. split; [exact Hf|]. exists (CFixed s), vs. unfold ret. cbn [fst snd].
        repeat split; auto.
        -- destruct (bare_signature_kinds _ _ _ Hbs) as [-> | [-> | ->] ]; reflexivity.
        -- intros ->. destruct H2.
        -- apply doomed_byte; assumption.
      * left. apply Hsame.
  - (* a pallet item *)
    destruct (t_def t) as [|vs| | | | | |] eqn:Hd; try (left; apply Hsame).
    unfold bind, get_pos, catch.
    destruct (pick_cases vs p e1 e2 Hp) as [(v & e1' & e2' & Hin & H1 & H2 & Hall)|[(x & e1' & y & e2' & H1 & H2)
      |(x & e1' & Hf & Hdb & H1 & H2 & H3)]].
    + rewrite H1, H2. destruct (v_fields v) as [|f [|g fs]] eqn:Hvf; try (left; apply Hsame).
      assert (Hne : vs <> []) by (intros ->; destruct Hin).
      rewrite res_mem.
      destruct (resolve_cases (f_ty f) p e1') as [(t1 & e1'' & Hl1 & Hr1)|[(cc & e1'' & Hff & Hdt & Hr1)|(e1'' & Hl1 & Hr1)]];
        rewrite Hr1.
      * rewrite Hl1. left. destruct (hinted_from_type t1); try apply Hsame. destruct (pitem_eqb _ _); [|apply Hsame].
        destruct (t_def t1); try apply Hsame. apply Hmove.
      * assert (Hdoom : doomed vs p) by (eapply doomed_dead; eauto).
        destruct (lookup types (f_ty f)) as [t1|]; [|left; apply Hsame].
        destruct (hinted_from_type t1); try (left; apply Hsame). destruct (pitem_eqb _ _); [|left; apply Hsame].
        destruct (t_def t1); try (left; apply Hsame).
        right. split; [exact Hff|]. eexists _, vs. unfold set_pos, ret. cbn [fst snd].
        split; [reflexivity|split; [reflexivity|split; [reflexivity|]]]. cbv beta iota. auto.
      * rewrite Hl1. left. apply Hsame.
    + rewrite H1, H2. left. apply Hsame.
    + rewrite H1. destruct (pick_variant b2 vs (p + k) (p + k)%nat e2) as [[o2 q2] e2']. cbn [fst snd] in H2, H3. subst q2.
      destruct o2 as [v|y| |]; try contradiction; [|left; apply Hsame].
      assert (Hne : vs <> []) by (intros ->; destruct H2).
      assert (Hdoom : doomed vs p) by (apply doomed_byte; assumption).
      destruct (v_fields v) as [|f [|g fs]] eqn:Hvf; try (left; apply Hsame).
      rewrite res_mem.
      destruct (lookup types (f_ty f)) as [t1|]; [|left; apply Hsame].
      destruct (hinted_from_type t1); try (left; apply Hsame). destruct (pitem_eqb _ _); [|left; apply Hsame].
      destruct (t_def t1); try (left; apply Hsame).
      right. split; [exact Hf|]. eexists _, vs. unfold set_pos, ret. cbn [fst snd].
        split; [reflexivity|split; [reflexivity|split; [reflexivity|]]]. cbv beta iota. auto.
Qed.

Lemma reject_some {E A} c id (m : M E parser_err A) p e : compact_at c = Some id ->
  (reject_compact_m c ;; m) p e = (Err (PRegistry (RInternal (UnexpectedCompactInsides id))), p, e).
Proof. intros H. unfold reject_compact_m, reject_compact. rewrite H. reflexivity. Qed.

Lemma trk_decode fuel : forall i P, inp_ok i -> trp eq (decode b1 r1 fuel i P) (decode b2 r2 fuel i P).
Proof.
  induction fuel as [|fuel IH]; intros i P Hi; cbn [decode]; [apply trk_fuel|]. unfold decode_body.
  eapply trk_bind with (R := fun a b => a = b /\ lookup types (snd a) = Some (fst a)).
  { destruct i as [t id|id]; cbn [inp_ok] in Hi.
    - apply trk_ret. auto.
    - eapply trk_bind; [apply trk_reg, trk_resolve|]. intros t ? [<- Ht]. apply trk_ret. auto. }
  intros [t id] ? [<- Hl]. cbn [fst snd] in Hl. intros p e1 e2 Hp.
  pose proof (trk_checked_type t id p e1 e2 Hl Hp) as Hc. cbv zeta in Hc. destruct Hc as [Hc|Hc].
  - revert Hc. unfold bind, tracked.
    destruct (checked_from_type b1 r1 t p e1) as [[o1 q1] e1']. destruct (checked_from_type b2 r2 t (p + k)%nat e2) as [[o2 q2] e2'].
    intros [Hbad|Hm].
    + destruct Hbad as [Hfa [-> |(x & -> & Hx)]].
      * destruct o2 as [b0|x0| |]; [destruct (decode_checked b2 r2 _ b0 _ _ _ q2 e2') as [[? ?] ?]|..]; left; split; auto.
      * destruct o2 as [b0|x0| |]; [destruct (decode_checked b2 r2 _ b0 _ _ _ q2 e2') as [[? ?] ?]|..]; left; split; auto; right; eauto.
    + destruct o1, o2; try contradiction; auto. destruct Hm as (<- & -> & Hq).
      apply (trk_checked _ _ IH _ _ _ _ _ e1' e2' Hq).
  - destruct Hc as (Hf & c2 & vs & Ho1 & Hq1 & Ho2 & Hd & Hne & Hdoom & Hk). unfold bind at 1 2.
    destruct (checked_from_type b1 r1 t p e1) as [[o1 q1] e1']. destruct (checked_from_type b2 r2 t (p + k)%nat e2) as [[o2 q2] e2'].
    cbn [fst snd] in *. subst o1 q1 o2. cbn [decode_checked]. unfold decode_plain. rewrite Hd, add_info_checker.
    destruct (compact_at (checker_of P)) as [cid|] eqn:Hcp.
    + rewrite (reject_some _ cid) by exact Hcp. destruct c2; try contradiction; cbn [decode_checked].
      * unfold parse_fixed, block_compact. rewrite add_info_checker, Hcp. right. reflexivity.
      * rewrite add_info_checker, (reject_some _ cid) by exact Hcp. right. reflexivity.
    + destruct vs as [|v0 vs]; [congruence|].
      assert (Hb : is_bad ((reject_compact_m (checker_of P);; (do v <- decode_variant b1 (decode b1 r1 fuel) (v0 :: vs);
         ret (Ext (DVariant v) (info_of (add_info P (info_from_ty t)))))) p e1')).
      { eapply bad_bind_ok; [apply reject_none, Hcp|]. apply bad_bind, Hdoom. }
      unfold is_bad in Hb. unfold tracked.
      destruct ((reject_compact_m _ ;; _) p e1') as [[o1 q1] e1'']. destruct (decode_checked _ _ _ _ _ _ _ _ _) as [[o2 q2'] e2''].
      left. exact Hb.
Qed.

Hypothesis Hg1 : good_buffer b1.
Hypothesis Hg2 : good_buffer b2.
Hypothesis Hgr : good_registry r1.

Lemma fuel_irrelevant {E} (b : buffer E) (r : registry E) (Hb : good_buffer b) (Hr : good_registry r) fuel id P p e :
  (decode_fuel b r <= fuel)%nat -> cycle_check (checker_of P) = [] ->
  decode b r fuel (Symbol id) P p e = decode_with_type b r (Symbol id) P p e.
Proof.
  intros Hf Hc. symmetry. unfold decode_with_type.
  pose proof (decode_type_runs b r Hb Hr id P p e Hc) as Hrun. unfold decode_with_type in Hrun.
  destruct (decode_lem b r (decode_fuel b r) fuel (Symbol id) P Hf p e) as [H|H]; [|exact H].
  exfalso. destruct (decode b r (decode_fuel b r) (Symbol id) P p e) as [[o q] e1].
  cbn [fst] in H. subst o. exact Hrun.
Qed.

Lemma trk_type id P : cycle_check (checker_of P) = [] ->
  trp eq (decode_with_type b1 r1 (Symbol id) P) (decode_with_type b2 r2 (Symbol id) P).
Proof.
  intros Hc p e1 e2 Hp. set (fuel := Nat.max (decode_fuel b1 r1) (decode_fuel b2 r2)).
  rewrite <- (fuel_irrelevant b1 r1 Hg1 Hgr fuel) by (unfold fuel; auto; lia).
  rewrite <- (fuel_irrelevant b2 r2 Hg2 (good_portable types) fuel) by (unfold fuel; auto; lia).
  apply (trk_decode fuel (Symbol id) P I p e1 e2 Hp).
Qed.

End Track.
