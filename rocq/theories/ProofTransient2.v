(** Memory that fails now and then: transactions, unchecked extrinsics, storage entries (C66). *)
From Coq Require Import Lia ZifyBool ZifyNat ZifyN.
From Verif Require Import Base Compact Types Indicators Decode Sign Unchecked Storage Spec SpecWf ProofBase ProofTables ProofPeel ProofSpec SpecSource
  ProofSafe ProofSafe2 ProofFuel SpecTrack ProofTrack ProofIso ProofSign2 SpecTransient SpecTransient2 ProofTransient ProofExternal Api ApiSign ApiStorage.
Local Open Scope list_scope.

(** *** Only recognised types give calls *)

Definition not_item (d : pdata) : Prop := match d with DCall _ | DEvent _ => False | _ => True end.

(** What a computation gives if it succeeds. *)
Definition yields {E X A} (Q : A -> Prop) (m : M E X A) : Prop :=
  forall p e, match m p e with (Ok a, _, _) => Q a | _ => True end.

Lemma yields_bind {E X A B} (Q : B -> Prop) (m : M E X A) f : (forall a, yields Q (f a)) -> yields Q (bind m f).
Proof. intros H p e. unfold bind. destruct (m p e) as [[[a|x| |] q] e1]; auto. apply H. Qed.
Lemma yields_ret {E X A} (Q : A -> Prop) a : Q a -> yields Q (@ret E X A a).
Proof. intros H p e. exact H. Qed.
Lemma yields_fail {E X A} (Q : A -> Prop) x : yields Q (@fail E X A x).
Proof. intros p e. exact I. Qed.
Lemma yields_map_err {E X Y A} (g : X -> Y) (Q : A -> Prop) (m : M E X A) : yields Q m -> yields Q (map_err g m).
Proof. intros H p e. specialize (H p e). unfold map_err. destruct (m p e) as [[[a|x| |] q] e1]; auto. Qed.

Ltac yl :=
  match goal with
  | |- yields _ (bind _ _) => apply yields_bind; intros ?; yl
  | |- yields _ (map_err _ _) => apply yields_map_err; yl
  | |- yields _ (ret _) => apply yields_ret; try exact I
  | |- yields _ (fail _) => apply yields_fail
  | |- yields _ (match ?x with _ => _ end) => destruct x; yl
  | |- _ => idtac
  end.

Lemma check_id_compact c id inner c' : check_id (with_compact_at c id) inner = inl c' -> compact_at c' <> None.
Proof.
  unfold check_id. cbn [cycle_check with_compact_at compact_at]. destruct (existsb _ _); [discriminate|].
  injection 1 as <-. cbn [compact_at]. discriminate.
Qed.

Section Items.
Context {E : Type}.
Variable b : buffer E.
Variable r : registry E.
Local Notation plain := (fun x : ext pdata => not_item (x_data x)).

Lemma elements_not_item d el n P : yields plain (decode_elements_set r d el n P).
Proof.
  unfold decode_elements_set. yl. cbn [x_data]. destruct (wrap_sequence _); exact I.
Qed.

Lemma primitive_not_item pr c : yields not_item (decode_primitive b pr c).
Proof.
  unfold decode_primitive, block_compact, decode_str, parse_uint. yl.
Qed.

Lemma bits_not_item s o id : yields not_item (decode_bit_sequence b r s o id).
Proof. unfold decode_bit_sequence. yl. Qed.

Lemma with_info {A} (m : M E parser_err A) (f : A -> ext pdata) Q : yields Q m -> (forall a, Q a -> not_item (x_data (f a))) ->
  yields plain (do a <- m; ret (f a)).
Proof. intros H Hf p e. specialize (H p e). unfold bind. destruct (m p e) as [[[a|x| |] q] e1]; auto. apply Hf, H. Qed.

Lemma plain_not_item d t id P : (forall j P', compact_at (checker_of P') <> None -> yields plain (d j P')) ->
  yields plain (decode_plain b r d t id P).
Proof.
  intros Hd. unfold decode_plain. destruct (t_def t) as [fs|vs|el|n el|ids|pr|inner|s o].
  - yl.
  - yl.
  - apply yields_bind. intros n. apply elements_not_item.
  - apply elements_not_item.
  - yl.
  - eapply with_info; [apply primitive_not_item|]. auto.
  - apply yields_bind. intros _. intros p e. unfold bind, lift_p, map_err, lift.
    destruct (check_id (with_compact_at (checker_of P) id) inner) as [c'|x] eqn:Hc; [|exact I].
    apply (Hd (Symbol inner) (Propagated c' (info_of P))). exact (check_id_compact _ _ _ _ Hc).
  - apply yields_bind. intros _. eapply with_info; [apply bits_not_item|]. auto.
Qed.

Lemma simple_not_item d k t id P : match k with CPalletSpecific _ _ _ _ => False | _ => True end ->
  (forall j P', compact_at (checker_of P') <> None -> yields plain (d j P')) ->
  yields plain (decode_checked b r d k t id P).
Proof.
  intros Hk Hd. destruct k; try contradiction; cbn [decode_checked].
  - apply plain_not_item, Hd.
  - unfold parse_fixed, block_compact. eapply with_info with (Q := not_item); [yl|auto].
  - unfold special_case_era. apply yields_bind. intros _. eapply with_info with (Q := not_item); [yl|auto].
  - unfold special_case_h256. apply yields_bind. intros _. eapply with_info with (Q := not_item); [yl|auto].
  - unfold parse_per. eapply with_info with (Q := not_item); [yl|auto].
Qed.

Lemma compact_not_item n : forall j P, compact_at (checker_of P) <> None -> yields plain (decode b r n j P).
Proof.
  induction n as [|n IH]; intros j P Hc; cbn [decode]; [intros p e; exact I|]. unfold decode_body.
  apply yields_bind. intros [t id]. cbv zeta. apply yields_bind. intros k.
  destruct k; try (apply simple_not_item; [exact I|exact IH]).
  cbn [decode_checked]. rewrite add_info_checker. destruct (compact_at (checker_of P)) as [cid|] eqn:Hcp; [|contradiction].
  intros p e. rewrite (reject_some _ cid) by exact Hcp. exact I.
Qed.
End Items.

(** *** A call read despite faults is a call *)

Section Flaky.
Context {E : Type}.
Variable r : registry E.
Variable types : list ty.
Hypothesis Hr : flaky_registry r types.
Local Notation r2 := (@portable unit types).

Section Data.
Variable b : buffer E.
Variable data : bytes.
Hypothesis Hb : flaky_copy b data.
Local Notation b2 := (@slice_buffer unit data).

Definition is_call (x : ext pdata) : Prop := exists c, x_data x = DCall c.

Lemma recognised_call t p pn pi vars : recognised data types t p (CPalletSpecific pn pi vars ItCall) ->
  checked_from_type b2 r2 t p tt = (Ok (CPalletSpecific pn pi vars ItCall), (p + 1)%nat, tt).
Proof.
  intros (vs & v & f & Hd & Hin & Hvf & Hpick & Hrec).
  destruct Hrec as [(k & Hk & _)|(item & t1 & var & Hk & Hcl & Hl1 & Hcl1 & Hd1)]; [discriminate Hk|].
  injection Hk as -> -> -> <-. unfold checked_from_type. rewrite (hinted_classify t). unfold hinted_of. rewrite Hcl, Hd.
  unfold bind, get_pos, catch. rewrite Hpick, Hvf. unfold resolve_ty. cbn [resolve portable]. unfold portable_resolve. rewrite Hl1.
  rewrite (hinted_classify t1). unfold hinted_of. rewrite Hcl1. cbn [pitem_eqb]. rewrite Hd1. unfold set_pos, ret. reflexivity.
Qed.

Lemma call_recognised n id P p e x q e' : decode b r n (Symbol id) P p e = (Ok x, q, e') -> is_call x ->
  match decode b2 r2 n (Symbol id) P p tt with (Ok x0, _, _) => is_call x0 | _ => True end.
Proof.
  intros H [c Hc]. destruct n as [|n]; [discriminate H|]. cbn [decode] in *. unfold decode_body in *.
  unfold bind at 1 in H. unfold bind at 1 in H. unfold map_err, resolve_ty in H.
  pose proof (fl_res r types Hr id e) as Hre. destruct (resolve r id e) as [[t|y] e1]; [|discriminate H]. cbn [fst] in Hre.
  unfold ret at 1 in H. cbv zeta beta iota in H. apply bind_ok in H. destruct H as (k & p1 & e2 & Hk & H).
  pose proof (checked_flaky b r data types Hb Hr t p e1) as Hck. rewrite Hk in Hck.
  destruct Hck as [[-> ->]|[-> Hrec]].
  - pose proof (simple_not_item b r (decode b r n) (checked0 t) t id (add_info P (info_from_ty t)) (checked0_simple t) (compact_not_item b r n) p e2) as Hn.
    rewrite H, Hc in Hn. destruct Hn.
  - assert (Hki : exists pn pi vars, k = CPalletSpecific pn pi vars ItCall).
    { pose proof (simple_not_item b r (decode b r n) k t id (add_info P (info_from_ty t))) as Hn.
      destruct k as [|k| | |pn pi vars it|k]; try (specialize (Hn I (compact_not_item b r n) (p + 1)%nat e2); rewrite H, Hc in Hn; destruct Hn).
      destruct it; [eauto|]. cbn [decode_checked] in H. apply bind_ok in H. destruct H as (? & ? & ? & _ & H).
      apply bind_ok in H. destruct H as (? & ? & ? & _ & H). unfold ret in H. injection H as <- _ _. discriminate Hc. }
    destruct Hki as (pn & pi & vars & ->).
    pose proof (recognised_call _ _ _ _ _ Hrec) as Hm.
    unfold bind at 1, bind at 1, map_err, resolve_ty. cbn [resolve portable]. unfold portable_resolve. rewrite Hre.
    unfold ret at 1. cbv zeta beta iota. unfold bind at 1. rewrite Hm. cbn [decode_checked].
    unfold bind at 1. destruct (reject_compact_m _ _ _) as [[[u|y| |] q1] e3]; auto.
    unfold bind at 1. destruct (decode_variant _ _ _ _ _) as [[[v|y| |] q2] e4]; auto. unfold ret, is_call. cbn [x_data]. eauto.
Qed.
End Data.

(** *** Comparing a run with faults and one without *)

(** [fault]: errors that faults may give in place of anything; [told x y]: [x] may be reported
    where [y] is reported without faults; [pan]: the run may panic. *)
Definition simz {X A B} (pan : Prop) (fault : X -> Prop) (told : X -> X -> Prop) (R : A -> B -> Prop)
    (m1 : M E X A) (m2 : M unit X B) : Prop :=
  forall p e, let '(o1, q1, _) := m1 p e in let '(o2, q2, _) := m2 p tt in
  match o1 with
  | Ok a => exists a2, o2 = Ok a2 /\ R a a2 /\ q2 = q1
  | Err x => fault x \/ exists y, o2 = Err y /\ told x y
  | Panic => pan
  | OutOfFuel => False
  end.

Section Simz.
Context {X : Type}.
Variable pan : Prop.
Variable fault : X -> Prop.
Variable told : X -> X -> Prop.

Lemma simz_bind {A B C D} (R : A -> B -> Prop) (Q : C -> D -> Prop) m1 m2 f1 f2 :
  simz pan fault told R m1 m2 -> (forall a a2, R a a2 -> simz pan fault told Q (f1 a) (f2 a2)) ->
  simz pan fault told Q (bind m1 f1) (bind m2 f2).
Proof.
  intros Hm Hf p e. specialize (Hm p e). unfold bind. destruct (m1 p e) as [[o1 q1] e1], (m2 p tt) as [[o2 q2] []].
  destruct o1 as [a|x| |].
  - destruct Hm as (a2 & -> & HR & ->). apply (Hf _ _ HR).
  - destruct Hm as [Hm|(y & -> & Hm)]; [|right; eauto].
    destruct o2 as [a2|y| |]; try (left; exact Hm). destruct (f2 a2 q2 tt) as [[? ?] ?]. left. exact Hm.
  - destruct o2 as [a2|y| |]; auto. destruct (f2 a2 q2 tt) as [[? ?] ?]. exact Hm.
  - destruct Hm.
Qed.

Lemma simz_ret {A B} (R : A -> B -> Prop) a a2 : R a a2 -> simz pan fault told R (ret a) (ret a2).
Proof. intros H p e. cbn. eauto. Qed.

Lemma simz_fail {A B} (R : A -> B -> Prop) x y : told x y -> simz pan fault told R (fail x) (fail y).
Proof. intros H p e. cbn. eauto. Qed.

Lemma simz_weaken {A B} (pan' : Prop) (fault' : X -> Prop) (told' : X -> X -> Prop) (R R' : A -> B -> Prop) m1 m2 :
  (pan' -> pan) -> (forall x, fault' x -> fault x) -> (forall x y, told' x y -> told x y) -> (forall a a2, R a a2 -> R' a a2) ->
  simz pan' fault' told' R m1 m2 -> simz pan fault told R' m1 m2.
Proof.
  intros Hp Hf Ht HR H p e. specialize (H p e). destruct (m1 p e) as [[o1 q1] e1], (m2 p tt) as [[o2 q2] []].
  destruct o1 as [a|x| |]; auto.
  - destruct H as (a2 & -> & H & ->). eauto.
  - destruct H as [H|(y & -> & H)]; eauto.
Qed.

Lemma simz_intro {A B} (R : A -> B -> Prop) m1 m2 :
  (forall p e o1 q1 e1 o2 q2, m1 p e = (o1, q1, e1) -> m2 p tt = (o2, q2, tt) ->
    match o1 with
    | Ok a => exists a2, o2 = Ok a2 /\ R a a2 /\ q2 = q1
    | Err x => fault x \/ exists y, o2 = Err y /\ told x y
    | Panic => pan
    | OutOfFuel => False
    end) -> simz pan fault told R m1 m2.
Proof.
  intros H p e. destruct (m1 p e) as [[o1 q1] e1] eqn:H1, (m2 p tt) as [[o2 q2] []] eqn:H2. exact (H p e _ _ _ _ _ H1 H2).
Qed.

Lemma simz_get : simz pan fault told eq get_pos get_pos.
Proof. intros p e. cbn. eauto. Qed.

Lemma simz_set q : simz pan fault told (fun _ _ => True) (set_pos q) (set_pos q).
Proof. intros p e. cbn. eauto. Qed.

Lemma simz_lift {A} (x : A + X) : (forall y, told y y) -> simz pan fault told eq (lift x) (lift x).
Proof. intros Ht p e. destruct x; cbn; eauto. Qed.

Lemma simz_local {A B} (R : A -> B -> Prop) p0 m1 m2 : simz pan fault told R m1 m2 ->
  simz pan fault told (fun x y => R (fst x) (fst y) /\ snd x = snd y) (at_local p0 m1) (at_local p0 m2).
Proof.
  intros H p e. specialize (H p0 e). unfold at_local. destruct (m1 p0 e) as [[o1 q1] e1], (m2 p0 tt) as [[o2 q2] []].
  destruct o1 as [a|x| |].
  - destruct H as (a2 & -> & H & ->). exists (a2, q1). auto.
  - destruct H as [H|(y & -> & H)]; [|right; eauto]. destruct o2; left; exact H.
  - destruct o2; exact H.
  - destruct H.
Qed.
End Simz.

Lemma simz_map_err {X Y A B} (g : X -> Y) pan (fault : X -> Prop) (told : X -> X -> Prop) (fault' : Y -> Prop) (told' : Y -> Y -> Prop) (R : A -> B -> Prop) m1 m2 :
  (forall x, fault x -> fault' (g x)) -> (forall x y, told x y -> told' (g x) (g y)) ->
  simz pan fault told R m1 m2 -> simz pan fault' told' R (map_err g m1) (map_err g m2).
Proof.
  intros Hf Ht H p e. specialize (H p e). unfold map_err. destruct (m1 p e) as [[o1 q1] e1], (m2 p tt) as [[o2 q2] []].
  destruct o1 as [a|x| |].
  - destruct H as (a2 & -> & H & ->). eauto.
  - destruct H as [H|(y & -> & H)]; [|right; eauto]. destruct o2; left; auto.
  - destruct o2; exact H.
  - destruct H.
Qed.

Definition lax (x y : parser_err) : Prop := True.

Lemma simz_read b data p0 n : flaky_copy b data ->
  simz False pext eq eq (read_slice b p0 n) (read_slice (slice_buffer data) p0 n).
Proof.
  intros [_ H] p e. specialize (H p0 n e). unfold read_slice. destruct (rd b p0 n e) as [o1 e1].
  destruct (rd (slice_buffer data) p0 n tt) as [o2 []]. cbn [fst] in H. destruct H as [-> |(c & ->)].
  - destruct o2; eauto.
  - destruct o2; left; left; eauto.
Qed.

Lemma simz_byte b data p0 : flaky_copy b data ->
  simz False pext eq eq (read_byte b p0) (read_byte (slice_buffer data) p0).
Proof.
  intros Hb p e. pose proof (simz_read b data p0 1 Hb p e) as H. unfold read_byte, bind.
  assert (Hlen : match read_slice b p0 1 p e with (Ok l, _, _) => List.length l = 1%nat | _ => True end).
  { unfold read_slice. pose proof (flaky_good b data Hb p0 1%N e) as Hg. destruct (rd b p0 1 e) as [[l|x] e1]; [|exact I].
    destruct (Hg l e1 eq_refl) as [Hl _]. lia. }
  destruct (read_slice b p0 1 p e) as [[o1 q1] e1], (read_slice (slice_buffer data) p0 1 p tt) as [[o2 q2] []].
  destruct o1 as [l|x| |].
  - destruct H as (? & -> & <- & ->). destruct l as [|i [|]]; try discriminate Hlen. unfold ret. eauto.
  - destruct H as [H|(y & -> & <-)]; [|right; eauto].
    destruct o2 as [l| | |]; try (left; assumption). destruct l as [|? [|]]; left; assumption.
  - destruct H.
  - destruct H.
Qed.

Lemma simz_compact b data w : flaky_copy b data ->
  simz False pext eq eq (get_compact w b) (get_compact w (slice_buffer data)).
Proof.
  intros Hb p e.
  pose proof (trk_get_compact b (slice_buffer data) r types 0 0 True (fl_len b data Hb) (proj1 Hr) (fl_rd b data Hb) w p e tt (Nat.le_0_l _)) as H.
  rewrite Nat.add_0_r in H. unfold tracked, bad in H.
  pose proof (get_compact_post b r (flaky_good b data Hb) w p e) as Hp. unfold post in Hp.
  destruct (get_compact w b p e) as [[o1 q1] e1], (get_compact w (slice_buffer data) p tt) as [[o2 q2] e2].
  destruct Hp as [_ Hp]. destruct H as [(_ & [-> |(x & -> & Hx)])|H]; [destruct Hp|left; exact Hx|].
  destruct o1 as [a|x| |], o2 as [a2|y| |]; try contradiction.
  - destruct H as (<- & -> & _). rewrite Nat.add_0_r. eauto.
  - subst y. rewrite shift_err_0. right. eauto.
Qed.

(** Types without recognised enums inside are read exactly. *)
Lemma simz_exact b data S id P : flaky_copy b data -> unrecognised types S -> S id -> cycle_check (checker_of P) = [] ->
  simz False pext eq eq (decode_with_type b r (Symbol id) P) (decode_with_type (slice_buffer data) r2 (Symbol id) P).
Proof.
  intros Hb HS Hid Hc p e. pose proof (decode_type_runs b r (flaky_good _ _ Hb) (flaky_good_reg _ _ Hr) id P p e Hc) as Hrun.
  pose proof (sim_exact b r data types S Hb Hr HS (decode_fuel b r) (Symbol id) P Hid p e) as Hs.
  unfold decode_with_type in *. rewrite <- (flaky_fuel b r data types Hb Hr). unfold simp in Hs.
  destruct (decode b r _ _ _ _ _) as [[o1 q1] e1]. destruct (decode (slice_buffer data) (portable types) _ _ _ _ _) as [[o2 q2] e2].
  destruct o1 as [x|x| |]; [| |destruct Hrun|destruct Hrun].
  - destruct Hs as (y & -> & [Hs1 Hs2] & ->). destruct x as [xd xi], y as [yd yi]. cbn in Hs1, Hs2. subst. eauto.
  - destruct Hs as [Hs|Hs]; [left; exact Hs|right]. destruct o2 as [y|y| |]; try tauto. destruct Hs as [[]|<-]. eauto.
Qed.

Hypothesis Hsig : plain_signatures types.
Hypothesis Hit : pallets_have_items types.

(** The same reading, and what is read as a call is a call. *)
Definition seen (x x0 : ext pdata) : Prop := same_reading x x0 /\ (is_call x -> is_call x0).

Lemma simz_type b data id P : flaky_copy b data -> cycle_check (checker_of P) = [] ->
  simz False pext lax seen (decode_with_type b r (Symbol id) P) (decode_with_type (slice_buffer data) r2 (Symbol id) P).
Proof.
  intros Hb Hc p e. pose proof (decode_type_runs b r (flaky_good _ _ Hb) (flaky_good_reg _ _ Hr) id P p e Hc) as Hrun.
  set (m := (2 * decode_fuel b r + fold_fuel types)%nat).
  assert (HE : forall A (Q : A -> Prop) l, (forall x, ~ Q x) -> Exists Q l -> False).
  { intros A Q l HQ Hx. apply Exists_exists in Hx. destruct Hx as (x & _ & Hx). exact (HQ x Hx). }
  assert (Hb0 : flaky_copy (@slice_buffer unit data) data).
  { split; [reflexivity|]. intros p' n []. left. reflexivity. }
  assert (Hr0 : flaky_registry r2 types).
  { split; [reflexivity|]. intros p' []. left. reflexivity. }
  assert (T1 : forall l, Exists (TF (fun _ => False)) l -> False) by (intros l; apply HE; intros ? []).
  assert (T2 : forall v, TV (fun _ => False) v -> False) by (intros v; apply HE; intros ? []).
  assert (T3 : forall l, Exists (TX (fun _ => False)) l -> False) by (intros l; apply HE; intros ? []).
  assert (T4 : forall (i : list info) (l : list pdata), Exists (fun _ => False) l -> False) by (intros i l; apply HE; intros ? []).
  pose proof (sim_folds b r data types Hb Hr Hsig (fun _ => False) (or_introl Hit) T1 T2 T3 T4 (decode_fuel b r) m (Symbol id) P (Nat.le_refl _) I p e) as Hs.
  pose proof (sim_folds _ _ data types Hb0 Hr0 Hsig (fun _ => False) (or_introl Hit) T1 T2 T3 T4 (decode_fuel b r) m (Symbol id) P (Nat.le_refl _) I p tt) as Hs0.
  pose proof (flaky_fuel b r data types Hb Hr) as Hfu.
  pose proof (decode_type_runs (@slice_buffer unit data) r2 (good_slice data) (good_portable types) id P p tt Hc) as Hrun0.
  pose proof (decode_with_type_post (@slice_buffer unit data) r2 (good_slice data) (good_portable types) (Symbol id) P p tt I Hc) as Hpo.
  pose proof (call_recognised b data Hb (decode_fuel b r) id P p e) as Hcall.
  unfold decode_with_type in *. rewrite <- Hfu in *. unfold simp in Hs, Hs0.
  destruct (decode b r _ _ _ _ _) as [[o1 q1] e1]. destruct (decode (slice_buffer data) (portable types) _ _ _ _ _) as [[o0 q0] e0].
  destruct (decode0 data types m (Symbol id) P p tt) as [[o2 q2] e2].
  assert (Hnx : forall x, o0 = Err x -> ~ pext x).
  { intros x -> Hx. unfold post in Hpo. destruct Hpo as [_ (_ & H2 & H1)]. destruct Hx as [(c & ->)|(c & ->)].
    - destruct (H1 c eq_refl) as (p1 & n1 & f & f' & Hf). cbn [rd slice_buffer] in Hf. unfold slice_rd in Hf.
      destruct (_ <? _)%nat; [discriminate|]. destruct (_ <? _)%N; discriminate.
    - destruct (H2 c eq_refl) as (i & f & f' & Hf). cbn [resolve portable] in Hf. unfold portable_resolve in Hf.
      destruct (lookup types i); discriminate. }
  destruct o1 as [x|x| |]; [| |destruct Hrun|destruct Hrun]; (destruct o0 as [x0|x0| |]; [| |destruct Hrun0|destruct Hrun0]).
  - destruct Hs as (y & -> & Hy & ->), Hs0 as (y' & Hy1 & Hy2 & ->). injection Hy1 as <-.
    exists x0. split; [reflexivity|]. split; [|reflexivity]. split.
    + exists y. split; apply gx_folds; assumption.
    + intros Hx. exact (Hcall _ _ _ eq_refl Hx).
  - destruct Hs as (y & -> & Hy & ->). exfalso. destruct Hs0 as [Hs0|[_ [] ] ]. exact (Hnx _ eq_refl Hs0).
  - destruct Hs0 as (y & -> & Hy & ->). destruct Hs as [Hs|[_ [] ] ]. left. exact Hs.
  - right. exists x0. split; [reflexivity|exact I].
Qed.

(** *** Transactions *)

Section Chain.
Context {ME : Type}.
Variable c : ApiSign.chain ME.
Hypothesis Hc : ch_types c = types.
Definition flaky_meta : metadata E ME :=
  Metadata E ME r (ch_spec c) (ch_call c) (ch_extensions c) (ch_params c) (ch_version c).
Local Notation sign A B := (@simz (signable_err ME) A B False sign_fault sign_told).

Lemma sign_told_refl (x : signable_err ME) : sign_told x x.
Proof. left. reflexivity. Qed.

Lemma simz_mark b data : flaky_copy b data ->
  simz False (fun x : signable_err ME => x = CutSignable) eq
    (fun mk mk2 => mk = mk2 /\ (extensions_start mk <= List.length data)%nat) (mark b) (mark (slice_buffer data)).
Proof.
  intros Hb p e. pose proof (@mark_runs E ME b flaky_meta (flaky_good b data Hb) p e) as Hrun. revert Hrun. unfold mark.
  pose proof (simz_compact b data U32 Hb 0%nat e) as H. unfold bind, catch, map_err, at_local. intros Hrun.
  destruct (get_compact U32 b 0 e) as [[o1 q1] e1], (get_compact U32 (slice_buffer data) 0 tt) as [[o2 q2] []].
  destruct o1 as [n|x| |].
  - destruct H as (? & -> & <- & ->). pose proof (simz_read b data q1 n Hb p e1) as H.
    destruct (read_slice b q1 n p e1) as [[o3 q3] e3], (read_slice (slice_buffer data) q1 n p tt) as [[o4 q4] []].
    destruct o3 as [l|x| |].
    + destruct H as (? & -> & <- & ->). unfold ret in *. eexists. split; [reflexivity|]. split; [|reflexivity]. split; [reflexivity|].
      cbn in Hrun. destruct Hb as [Hl _]. cbn [extensions_start]. lia.
    + destruct H as [H|(y & -> & <-)]; [destruct o4; left; reflexivity|right; eauto].
    + destruct H.
    + destruct H.
  - destruct o2 as [n| | |]; try (left; reflexivity).
    destruct (read_slice (slice_buffer data) q2 n p tt) as [[[l|y| |] q4] []]; left; reflexivity.
  - destruct H.
  - destruct H.
Qed.

Lemma same_update k d y : folds d y -> collected_update k d = collected_update k y.
Proof. destruct 1; reflexivity. Qed.

Definition collect_step (k : collected) (d : pdata) : collected + ext_err :=
  match d with
  | DComposite [f] => collected_update k (x_data (fd_data f))
  | DComposite _ => inl k
  | _ => collected_update k d
  end.

Lemma same_step k d y : folds d y -> collect_step k d = collect_step k y.
Proof.
  destruct 1 as [d|l l' Hl|n docs l l' Hl|l l' Hl|i l l' Hl|i docs p n l l' pd fn ft fd Hl|i docs p n l l' pd fn ft fd Hl|kk l n docs fn ft fd d i Hw]; try reflexivity.
  destruct Hl as [|f f' l l' Hf Hl]; [reflexivity|]. destruct Hl as [|f2 f2' l l' Hf2 Hl]; [|reflexivity].
  cbn [collect_step]. destruct Hf as [n t docs d d' i Hd]. cbn [fd_data x_data]. apply same_update, Hd.
Qed.

Lemma same_collect l l0 : Forall2 same_reading l l0 -> forall k, collect_loop k l = collect_loop k l0.
Proof.
  induction 1 as [|x x0 l l0 (y & H1 & H2) Hl IH]; intros k; [reflexivity|]. cbn [collect_loop].
  assert (He : forall x : ext pdata, match x_data x with
     | DComposite [f] => collected_update k (x_data (fd_data f)) | DComposite _ => inl k | d => collected_update k d end = collect_step k (x_data x)).
  { intros z. destruct (x_data z); reflexivity. }
  rewrite !He. destruct H1 as [d d' i H1]. inversion H2 as [d2 d2' i2 H3 E1 E2]. subst d2' i2 x0. cbn [x_data].
  rewrite (same_step k _ _ H1), (same_step k _ _ H3). destruct (collect_step k d'); [apply IH|reflexivity].
Qed.

Lemma same_check l l0 v g : Forall2 same_reading l l0 -> @check_extensions ME l v g = check_extensions l0 v g.
Proof. intros H. unfold check_extensions. rewrite (same_collect _ _ H). reflexivity. Qed.

Lemma simz_exts_loop b data l : flaky_copy b data ->
  simz False pext lax (Forall2 same_reading) (extensions_loop b r l) (extensions_loop (slice_buffer data) r2 l).
Proof.
  intros Hb. induction l as [|[i id] l IH]; cbn [extensions_loop]; [apply simz_ret; constructor|].
  eapply simz_bind; [apply simz_type; [exact Hb|reflexivity]|]. intros x x0 [Hx _].
  eapply simz_bind; [exact IH|]. intros xs xs0 Hxs. apply simz_ret. constructor; assumption.
Qed.

Lemma simz_exts_exact b data S l : flaky_copy b data -> unrecognised types S -> Forall (fun x => S (snd x)) l ->
  simz False pext eq eq (extensions_loop b r l) (extensions_loop (slice_buffer data) r2 l).
Proof.
  intros Hb HS. induction l as [|[i id] l IH]; intros Hl; cbn [extensions_loop]; [apply simz_ret; constructor|].
  pose proof (Forall_inv Hl) as H1. pose proof (Forall_inv_tail Hl) as H2. cbn [snd] in H1.
  eapply simz_bind; [apply simz_exact with (S := S); [exact Hb|exact HS|exact H1|reflexivity]|]. intros x ? <-.
  eapply simz_bind; [exact (IH H2)|]. intros xs ? <-. apply simz_ret. reflexivity.
Qed.

Definition read_fault (x : signable_err ME) : Prop := exists y, x = Parsing y /\ pext y.

Lemma simz_checks (b : buffer E) data g xs xs0 (told : signable_err ME -> signable_err ME -> Prop) : flaky_copy b data -> Forall2 same_reading xs xs0 -> (forall x, told x x) ->
  forall R : list (ext pdata) -> list (ext pdata) -> Prop, R xs xs0 ->
  @simz (signable_err ME) _ _ False read_fault told R
    (do position <- get_pos;
     if negb (Nat.eqb position (total_len b)) then fail (SomeDataNotUsedExtensions position)
     else do nv <- map_err MetaStructure (lift (ch_spec c));
       lift (check_extensions xs (printed_spec_version nv) g) ;; ret xs)
    (do position <- get_pos;
     if negb (Nat.eqb position (total_len (@slice_buffer unit data))) then fail (SomeDataNotUsedExtensions position)
     else do nv <- map_err MetaStructure (lift (ch_spec c));
       lift (check_extensions xs0 (printed_spec_version nv) g) ;; ret xs0).
Proof.
  intros Hb Hxs Ht R HR. eapply simz_bind; [apply simz_get|]. intros q ? <-.
  destruct Hb as [Hl _]. rewrite Hl. change (total_len (@slice_buffer unit data)) with (List.length data).
  destruct (negb (Nat.eqb q (List.length data))); [apply simz_fail, Ht|].
  eapply simz_bind with (R := eq).
  { eapply simz_map_err with (fault := fun _ => False) (told := eq); [intros x []|intros x ? <-; apply Ht|].
    apply simz_lift. reflexivity. }
  intros nv ? <-. rewrite (same_check _ _ _ _ Hxs).
  eapply simz_bind; [apply simz_lift, Ht|]. intros _ _ _. apply simz_ret, HR.
Qed.

Lemma parsing_fault x : pext x -> read_fault (Parsing x).
Proof. intros H. red. eauto. Qed.

Lemma simz_exts_unmarked b data g : flaky_copy b data ->
  simz False read_fault sign_told (Forall2 same_reading) (decode_extensions_unmarked b flaky_meta g)
    (decode_extensions_unmarked (slice_buffer data) (chain_metadata c) g).
Proof.
  intros Hb. unfold decode_extensions_unmarked. cbn [flaky_meta chain_metadata m_types m_signed_extensions m_spec_name_version]. rewrite Hc.
  eapply simz_bind with (R := eq).
  { eapply simz_map_err with (fault := fun _ => False) (told := eq); [intros x []|intros x ? <-; apply sign_told_refl|].
    apply simz_lift. reflexivity. }
  intros l ? <-. eapply simz_bind.
  { eapply simz_map_err; [exact parsing_fault| |apply simz_exts_loop; exact Hb]. intros x y _. right. eauto. }
  intros xs xs0 Hxs. apply simz_checks; auto. apply sign_told_refl.
Qed.

Lemma same_reading_refl x : same_reading x x.
Proof. exists x. destruct x as [d i]. split; constructor; constructor. Qed.

Lemma all_same_refl l : Forall2 same_reading l l.
Proof. induction l; constructor; auto using same_reading_refl. Qed.

Lemma simz_exts_unmarked_exact b data g S : flaky_copy b data -> unrecognised types S ->
  (forall l, ch_extensions c = inl l -> Forall (fun x => S (snd x)) (extension_types l)) ->
  simz False read_fault eq eq (decode_extensions_unmarked b flaky_meta g)
    (decode_extensions_unmarked (slice_buffer data) (chain_metadata c) g).
Proof.
  intros Hb HS Hl. unfold decode_extensions_unmarked. cbn [flaky_meta chain_metadata m_types m_signed_extensions m_spec_name_version]. rewrite Hc.
  destruct (ch_extensions c) as [l|x]; [|intros p e; cbn; right; eauto]. specialize (Hl l eq_refl).
  eapply simz_bind with (R := fun a a2 => a = l /\ a2 = l).
  { intros p e. cbn. eauto. }
  intros ? ? [-> ->]. eapply simz_bind.
  { eapply simz_map_err with (told' := eq); [exact parsing_fault| |eapply simz_exts_exact; eassumption]. intros x ? <-. reflexivity. }
  intros xs ? <-. apply simz_checks; auto using all_same_refl.
Qed.

(** The call. *)
Lemma same_reading_call c1 c2 i1 i2 : same_reading (Ext (DCall c1) i1) (Ext (DCall c2) i2) -> same_call c1 c2.
Proof.
  intros (y & H1 & H2). inversion H1 as [d1 d1' j1 F1 E1 E2]. subst y d1 j1. inversion H2 as [d2 d2' j2 F2 E1 E2]. subst d2 d2' j2.
  exists (Ext d1' []). split; constructor; assumption.
Qed.

Lemma seen_call x x0 c1 : seen x x0 -> x_data x = DCall c1 -> exists c2, x_data x0 = DCall c2 /\ same_call c1 c2.
Proof.
  intros [Hs Hcall] Hx. destruct (Hcall (ex_intro _ _ Hx)) as (c2 & H2). exists c2. split; [exact H2|].
  destruct x as [d i], x0 as [d0 i0]. cbn [x_data] in Hx, H2. subst d d0. eapply same_reading_call, Hs.
Qed.

Lemma simz_call_with (told : signable_err ME -> signable_err ME -> Prop) b (b2 : buffer unit) :
  (forall x, told x x) -> (forall x y, told (Parsing x) (Parsing y)) ->
  (forall id, simz False pext lax seen (decode_with_type b r (Symbol id) propagated_new) (decode_with_type b2 r2 (Symbol id) propagated_new)) ->
  simz False call_fault told same_call (decode_as_call_unmarked b flaky_meta)
    (decode_as_call_unmarked b2 (chain_metadata c)).
Proof.
  intros Ht Ht2 Hty. unfold decode_as_call_unmarked. cbn [flaky_meta chain_metadata m_types m_call_ty]. rewrite Hc.
  eapply simz_bind with (R := eq).
  { eapply simz_map_err with (fault := fun _ => False) (told := eq); [intros x []|intros x ? <-; apply Ht|].
    apply simz_lift. reflexivity. }
  intros id ? <-. eapply simz_bind.
  { eapply simz_map_err; [| |apply Hty]; [|intros x y _; apply Ht2]. intros x Hx. left. eauto. }
  intros x x0 Hx.
  assert (Hno : forall m2, simz False call_fault told same_call (fail (NotACall id)) m2).
  { intros m2 p e. unfold fail. destruct (m2 p tt) as [[? ?] ?]. left. right. eauto. }
  destruct (x_data x) eqn:Hd; try apply Hno.
  destruct (seen_call _ _ _ Hx Hd) as (c2 & -> & Hsc). apply simz_ret, Hsc.
Qed.

Lemma simz_limited b data n id P : flaky_copy b data -> (n <= List.length data)%nat -> cycle_check (checker_of P) = [] ->
  exists b1' b2', limit_length b n = Some b1' /\ limit_length (slice_buffer data) n = Some b2' /\
    simz False pext lax seen (decode_with_type b1' r (Symbol id) P) (decode_with_type b2' r2 (Symbol id) P).
Proof.
  intros Hb Hn HP. destruct (limit_same data n Hn) as (b2' & H2 & Hs & Hg).
  assert (H1 : exists b1', limit_length b n = Some b1' /\ flaky_copy b1' (firstn n data)).
  { unfold limit_length. destruct Hb as [Hl Hb]. rewrite Hl. destruct (List.length data <? n)%nat eqn:Hlt; [lia|].
    eexists. split; [reflexivity|]. split; [cbn [total_len]; rewrite firstn_length; lia|].
    intros p k e. cbn [rd slice_buffer]. unfold limited_rd, slice_rd. rewrite firstn_length, Nat.min_l by lia.
    destruct (n <? p)%nat eqn:H3; [left; reflexivity|]. destruct (N.of_nat n <? N.of_nat p + k)%N eqn:H4; [left; reflexivity|].
    destruct (Hb p k e) as [H5|H5]; [left|right; exact H5]. rewrite H5. cbn [rd slice_buffer]. unfold slice_rd.
    destruct (List.length data <? p)%nat eqn:H6; [lia|].
    destruct (N.of_nat (List.length data) <? N.of_nat p + k)%N eqn:H7; [lia|]. cbn [fst].
    f_equal. unfold slice. rewrite skipn_firstn_comm, firstn_firstn, Nat.min_l by lia. reflexivity. }
  destruct H1 as (b1' & H1 & Hb1). exists b1', b2'. split; [exact H1|]. split; [exact H2|].
  intros p e. pose proof (simz_type b1' (firstn n data) id P Hb1 HP p e) as H.
  pose proof (trk_shifted types 0 0 b2' _ id P Hs Hg (good_slice _) HP p tt tt (Nat.le_0_l _)) as Ht.
  rewrite Nat.add_0_r in Ht. unfold tracked in Ht.
  destruct (decode_with_type b1' r (Symbol id) P p e) as [[o1 q1] e1].
  destruct (decode_with_type b2' r2 (Symbol id) P p tt) as [[o2 q2] e2].
  destruct (decode_with_type (slice_buffer (firstn n data)) r2 (Symbol id) P p tt) as [[o3 q3] e3].
  destruct Ht as [[ [] _]|Ht]. destruct o1 as [x|x| |]; auto.
  - destruct H as (a2 & -> & H & ->). destruct o2 as [y| | |]; try contradiction. destruct Ht as (-> & -> & _). exists a2.
    repeat split; try apply H. lia.
  - destruct H as [H|(y & -> & H)]; [left; exact H|right]. destruct o2 as [|z| |]; try contradiction. exists z. split; [reflexivity|exact I].
Qed.

Lemma simz_call b data mk : flaky_copy b data -> (extensions_start mk <= List.length data)%nat ->
  simz False call_fault sign_told same_call
    (decode_as_call b mk flaky_meta) (decode_as_call (slice_buffer data) mk (chain_metadata c)).
Proof.
  intros Hb Hn. unfold decode_as_call, data_no_extensions.
  destruct (simz_limited b data _ 0 propagated_new Hb Hn eq_refl) as (b1' & b2' & H1 & H2 & _). rewrite H1, H2.
  assert (Hty : forall id, simz False pext lax seen (decode_with_type b1' r (Symbol id) propagated_new) (decode_with_type b2' r2 (Symbol id) propagated_new)).
  { intros id. destruct (simz_limited b data _ id propagated_new Hb Hn eq_refl) as (b3 & b4 & H3 & H4 & H).
    rewrite H1 in H3. rewrite H2 in H4. injection H3 as <-. injection H4 as <-. exact H. }
  eapply simz_bind; [apply simz_local, simz_call_with; [apply sign_told_refl| |exact Hty]|].
  { intros x y. right. eauto. }
  intros [a q] [a2 q2] [Ha Hq]. cbn [fst snd] in Ha, Hq. subst q2.
  destruct (Nat.eqb q _); [apply simz_ret, Ha|apply simz_fail, sign_told_refl].
Qed.

Lemma simz_catch b data mk xs xs0 : flaky_copy b data -> (extensions_start mk <= List.length data)%nat ->
  forall told, @simz (signable_err ME) _ _ False sign_fault told (fun t t0 => call_told (tp_call t) (tp_call t0) /\ tp_extensions t = xs /\ tp_extensions t0 = xs0)
    (do cr <- catch (decode_as_call b mk flaky_meta); ret (TransactionParsed cr xs))
    (do cr <- catch (decode_as_call (slice_buffer data) mk (chain_metadata c)); ret (TransactionParsed cr xs0)).
Proof.
  intros Hb Hn told p e. pose proof (simz_call b data mk Hb Hn p e) as H.
  pose proof (call_runs (slice_buffer data) (chain_metadata c) (good_slice data) (good_portable _) mk p tt Hn) as R2.
  pose proof (ProofExternal.call_pos b mk flaky_meta p e) as P1.
  pose proof (ProofExternal.call_pos (slice_buffer data) mk (chain_metadata c) p tt) as P2.
  unfold bind, catch. destruct (decode_as_call b mk flaky_meta p e) as [[o1 q1] e1].
  destruct (decode_as_call (slice_buffer data) mk (chain_metadata c) p tt) as [[o2 q2] e2]. cbn [fst snd] in P1, P2. subst q1 q2.
  destruct o1 as [a|x| |].
  - destruct H as (a2 & -> & H & _). unfold ret. eexists. split; [reflexivity|]. cbn [tp_call tp_extensions call_told]. auto.
  - destruct H as [H|(y & -> & H)].
    + destruct o2 as [a2|y| |]; try destruct R2; unfold ret; (eexists; split; [reflexivity|]; cbn [tp_call tp_extensions call_told]; auto).
    + unfold ret. eexists. split; [reflexivity|]. cbn [tp_call tp_extensions call_told]. auto.
  - destruct H.
  - destruct H.
Qed.

(** [parse_transaction]. *)
Lemma simz_transaction (told : signable_err ME -> signable_err ME -> Prop) (R : list (ext pdata) -> list (ext pdata) -> Prop) b data g :
  (forall x, told x x) -> flaky_copy b data ->
  simz False read_fault told R (decode_extensions_unmarked b flaky_meta g) (decode_extensions_unmarked (slice_buffer data) (chain_metadata c) g) ->
  simz False sign_fault told (fun t t0 => call_told (tp_call t) (tp_call t0) /\ R (tp_extensions t) (tp_extensions t0))
    (parse_transaction b flaky_meta g) (parse_transaction (slice_buffer data) (chain_metadata c) g).
Proof.
  intros Ht Hb Hx. unfold parse_transaction.
  eapply simz_bind with (R := fun mk mk2 => mk = mk2 /\ (extensions_start mk <= List.length data)%nat).
  { eapply simz_weaken; [| | | |apply simz_mark; exact Hb]; auto.
    - intros x ->. left. reflexivity.
    - intros x ? <-. apply Ht. }
  intros mk ? [<- Hn]. eapply simz_bind with (R := R).
  { unfold decode_extensions. eapply simz_weaken with (fault' := read_fault) (R := R); [| | | |eapply simz_bind; [apply simz_local, Hx|] ]; auto.
    { intros x H. right. exact H. }
    intros [a q] [a2 q2] [Ha _]. apply simz_ret, Ha. }
  intros xs xs0 HR. eapply simz_weaken; [| | | |apply (simz_catch b data mk xs xs0 Hb Hn told)]; auto.
  intros t t0 (H1 & -> & ->). auto.
Qed.

Lemma simz_unmarked (told : signable_err ME -> signable_err ME -> Prop) (R : list (ext pdata) -> list (ext pdata) -> Prop) b data g :
  (forall x, told x x) -> (forall x y, told (Parsing x) (Parsing y)) -> flaky_copy b data ->
  simz False read_fault told R (decode_extensions_unmarked b flaky_meta g) (decode_extensions_unmarked (slice_buffer data) (chain_metadata c) g) ->
  simz False call_fault told (fun t t0 => same_call (fst t) (fst t0) /\ R (snd t) (snd t0))
    (parse_transaction_unmarked b flaky_meta g) (parse_transaction_unmarked (slice_buffer data) (chain_metadata c) g).
Proof.
  intros Ht Ht2 Hb Hx. unfold parse_transaction_unmarked.
  eapply simz_bind with (R := fun x y => (same_call (fst (fst x)) (fst (fst y)) /\ R (snd (fst x)) (snd (fst y))) /\ snd x = snd y).
  2: { intros [[a xs] q] [[a2 xs2] q2] [H _]. apply simz_ret, H. }
  apply simz_local with (R := fun x y => same_call (fst x) (fst y) /\ R (snd x) (snd y)).
  eapply simz_bind with (R := same_call).
  { eapply simz_weaken; [| | | |apply (simz_call_with told b (slice_buffer data) Ht Ht2)]; auto.
    - intros id. apply simz_type; [exact Hb|reflexivity]. }
  intros a a2 Ha. eapply simz_bind with (R := R).
  { eapply simz_weaken; [| | | |exact Hx]; auto. intros x H. left. exact H. }
  intros xs xs2 HR. apply simz_ret. auto.
Qed.

(** *** Unchecked extrinsics *)

Lemma unchecked_told_refl (x : unchecked_err ME) : unchecked_told x x.
Proof. left. reflexivity. Qed.

Lemma simz_part b data id : flaky_copy b data ->
  @simz (unchecked_err ME) _ _ False unchecked_fault unchecked_told seen
    (map_err UParsing (decode_as_type_at_position b r id)) (map_err UParsing (decode_as_type_at_position (slice_buffer data) r2 id)).
Proof.
  intros Hb. eapply simz_map_err; [| |apply simz_type; [exact Hb|reflexivity]].
  - intros x Hx. right. left. eauto.
  - intros x y _. right. eauto.
Qed.

Lemma simz_meta {A} (x : A + ME) : @simz (unchecked_err ME) _ _ False unchecked_fault unchecked_told eq
  (map_err UMetaStructure (lift x)) (map_err UMetaStructure (lift x)).
Proof.
  eapply simz_map_err with (fault := fun _ => False) (told := eq); [intros y []|intros y ? <-; apply unchecked_told_refl|].
  apply simz_lift. reflexivity.
Qed.

Lemma simz_unchecked b data : flaky_copy b data ->
  simz False unchecked_fault unchecked_told same_unchecked
    (decode_as_unchecked_extrinsic b flaky_meta) (decode_as_unchecked_extrinsic (slice_buffer data) (chain_metadata c)).
Proof.
  intros Hb. unfold decode_as_unchecked_extrinsic. eapply simz_bind; [apply simz_local with (R := same_unchecked)|].
  2: { intros [a q] [a2 q2] [H _]. apply simz_ret, H. }
  unfold decode_unchecked_body. cbn [flaky_meta chain_metadata m_types m_extrinsic_type_params m_extrinsic_version]. rewrite Hc.
  eapply simz_bind; [apply simz_meta|]. intros ps ? <-. cbv zeta.
  eapply simz_bind.
  { eapply simz_map_err; [| |apply simz_compact; exact Hb]; [intros x _; left; reflexivity|intros x ? <-; apply unchecked_told_refl]. }
  intros n ? <-. eapply simz_bind; [apply simz_get|]. intros s ? <-.
  change (total_len (@slice_buffer unit data)) with (List.length data). rewrite (proj1 Hb).
  destruct (_ <? _)%N; [apply simz_fail, unchecked_told_refl|].
  destruct (_ <? _)%N; [apply simz_fail, unchecked_told_refl|].
  eapply simz_bind.
  { eapply simz_map_err; [| |apply simz_byte; exact Hb]; [intros x Hx; right; left; eauto|intros x ? <-; apply unchecked_told_refl]. }
  intros vb ? <-. eapply simz_bind; [apply simz_set|]. intros _ _ _. eapply simz_bind; [apply simz_meta|]. intros v ? <-.
  assert (Hno : forall m2, simz False unchecked_fault unchecked_told same_unchecked (fail (@UnexpectedCallTy ME (ep_call ps))) m2).
  { intros m2 p e. unfold fail. destruct (m2 p tt) as [[? ?] ?]. left. right. right. eauto. }
  destruct (negb _); [apply simz_fail, unchecked_told_refl|]. destruct (N.eqb _ _).
  - eapply simz_bind; [apply simz_part; exact Hb|]. intros x x0 Hx.
    destruct (x_data x) eqn:Hd; try apply Hno. destruct (seen_call _ _ _ Hx Hd) as (c2 & -> & Hsc). apply simz_ret, Hsc.
  - eapply simz_bind; [apply simz_part; exact Hb|]. intros a a0 Ha.
    eapply simz_bind; [apply simz_part; exact Hb|]. intros sg sg0 Hs.
    eapply simz_bind; [apply simz_part; exact Hb|]. intros ex ex0 He.
    eapply simz_bind; [apply simz_part; exact Hb|]. intros x x0 Hx.
    destruct (x_data x) eqn:Hd; try apply Hno. destruct (seen_call _ _ _ Hx Hd) as (c2 & -> & Hsc). apply simz_ret.
    repeat split; try apply Ha; try apply Hs; try apply He. exact Hsc.
Qed.
End Chain.

Lemma simz_all_body v value : flaky_copy v value ->
  forall id, simz False pext lax seen (decode_all_body v r id) (decode_all_body (slice_buffer value) r2 id).
Proof.
  intros Hv id. unfold decode_all_body. eapply simz_bind; [apply simz_set|]. intros _ _ _.
  eapply simz_bind; [apply simz_type; [exact Hv|reflexivity]|]. intros x x0 Hx.
  eapply simz_bind; [apply simz_get|]. intros q ? <-. rewrite (proj1 Hv).
  change (total_len (@slice_buffer unit value)) with (List.length value). destruct (Nat.eqb _ _); [apply simz_ret, Hx|apply simz_fail; exact I].
Qed.

(** *** Storage entries *)

Section Store.
Variable blake2_128 twox_64 : bytes -> bytes.
Variable k v : buffer E.
Variable key value : bytes.
Hypothesis Hk : flaky_copy k key.
Hypothesis Hv : flaky_copy v value.
(** The key could not be read at some moment. *)
Definition key_failed : Prop := exists p n f x f', rd k p n f = (inr (BExternal x), f').
Local Notation ks := (@slice_buffer unit key).
Local Notation stz A B := (@simz storage_err A B key_failed storage_fault storage_told).

Lemma storage_told_refl x : storage_told x x.
Proof. left. reflexivity. Qed.

Lemma simz_key_slice p0 n : @simz storage_err _ _ key_failed storage_fault storage_told eq
  (map_err ParsingKey (read_slice k p0 n)) (map_err ParsingKey (read_slice ks p0 n)).
Proof.
  eapply simz_weaken with (pan' := False) (R := eq); [intros []| | | |eapply simz_map_err; [| |apply simz_read; exact Hk]].
  - intros x Hx. exact Hx.
  - intros x y Hx. exact Hx.
  - auto.
  - intros x Hx. left. eauto.
  - intros x ? <-. apply storage_told_refl.
Qed.

Lemma simz_key_type id : @simz storage_err _ _ key_failed storage_fault storage_told seen
  (map_err ParsingKey (decode_with_type k r (Symbol id) propagated_new)) (map_err ParsingKey (decode_with_type ks r2 (Symbol id) propagated_new)).
Proof.
  eapply simz_weaken with (pan' := False) (R := seen); [intros []| | | |eapply simz_map_err; [| |apply simz_type; [exact Hk|reflexivity]]].
  - intros x Hx. exact Hx.
  - intros x y Hx. exact Hx.
  - auto.
  - intros x Hx. left. eauto.
  - intros x y _. right. left. eauto.
Qed.

Lemma slice_len p0 n p e : match read_slice k p0 n p e with (Ok l, _, _) => N.of_nat (List.length l) = n /\ (N.of_nat p0 + n <= N.of_nat (total_len k))%N | _ => True end.
Proof.
  unfold read_slice. pose proof (flaky_good k key Hk p0 n e) as Hg. destruct (rd k p0 n e) as [[l|x] e1]; [|exact I].
  destruct (Hg l e1 eq_refl) as [H1 H2]. split; [exact H1|lia].
Qed.

Lemma simz_cut len h id : @simz storage_err _ _ key_failed storage_fault storage_told same_part
  (cut_hash len h id k) (cut_hash len h id ks).
Proof.
  unfold cut_hash. eapply simz_bind; [apply simz_get|]. intros p0 ? <-.
  eapply simz_bind with (R := fun l l2 => l = l2 /\ N.of_nat (List.length l) = len).
  { intros p e. pose proof (simz_key_slice p0 len p e) as H. pose proof (slice_len p0 len p e) as Hl. unfold map_err in *.
    destruct (read_slice k p0 len p e) as [[o1 q1] e1], (read_slice ks p0 len p tt) as [[o2 q2] []].
    destruct o1 as [l|x| |], o2 as [l2|y| |]; try exact H; destruct H as (a2 & Ha & <- & ->); try discriminate Ha. injection Ha as ->.
    exists l. repeat split; apply Hl. }
  intros l ? [<- Hl]. rewrite Hl, N.eqb_refl. eapply simz_bind; [apply simz_set|]. intros _ _ _. apply simz_ret. reflexivity.
Qed.

Lemma simz_check len h id : @simz storage_err _ _ key_failed storage_fault storage_told same_part
  (check_hash len h id k r) (check_hash len h id ks r2).
Proof.
  unfold check_hash. eapply simz_bind; [apply simz_get|]. intros p0 ? <-.
  eapply simz_bind with (R := fun l l2 => l = l2 /\ N.of_nat (List.length l) = len /\ (N.of_nat p0 + len <= N.of_nat (total_len k))%N).
  { intros p e. pose proof (simz_key_slice p0 len p e) as H. pose proof (slice_len p0 len p e) as Hl. unfold map_err in *.
    destruct (read_slice k p0 len p e) as [[o1 q1] e1], (read_slice ks p0 len p tt) as [[o2 q2] []].
    destruct o1 as [l|x| |], o2 as [l2|y| |]; try exact H; destruct H as (a2 & Ha & <- & ->); try discriminate Ha. injection Ha as ->.
    exists l. repeat split; apply Hl. }
  intros l ? (<- & Hl & Hend). rewrite Hl, N.eqb_refl. assert (Hs : (p0 + N.to_nat len <= total_len k)%nat) by lia.
  clear Hl Hend. generalize dependent (p0 + N.to_nat len)%nat. intros s Hs.
  apply simz_intro. intros p e o' q' e' o0 q0 Ha Hrb. unfold bind at 1, set_pos at 1 in Ha. unfold bind at 1, set_pos at 1 in Hrb.
  unfold bind at 1 in Ha. unfold bind at 1 in Hrb.
  pose proof (simz_key_type id s e) as H. pose proof (decode_type_runs k r (flaky_good _ _ Hk) (flaky_good_reg _ _ Hr) id propagated_new s e eq_refl) as Hrun.
  unfold map_err in *.
  destruct (decode_with_type k r (Symbol id) propagated_new s e) as [[o1 q1] e1].
  destruct (decode_with_type ks r2 (Symbol id) propagated_new s tt) as [[o2 q2] []].
  destruct o1 as [x|x| |].
  - cbn in Hrun. destruct o2 as [y|y| |]; destruct H as (x0 & Hx0 & Hseen & ->); try discriminate Hx0. injection Hx0 as ->.
    unfold bind, get_pos, catch, read_slice in Ha, Hrb.
    pose proof (proj2 Hk s (N.of_nat (q1 - s)) e1) as Hagain.
    assert (Hmem : exists l2, rd ks s (N.of_nat (q1 - s)) tt = (inl l2, tt)).
    { cbn [rd slice_buffer]. unfold slice_rd. destruct Hk as [Hlen _]. rewrite Hlen in *.
      destruct (List.length key <? s)%nat eqn:H1; [lia|]. destruct (_ <? _)%N eqn:H2; [lia|]. eauto. }
    destruct Hmem as (l2 & Hmem). rewrite Hmem in Hagain, Hrb. cbn [fst] in Hagain.
    destruct (rd k s (N.of_nat (q1 - s)) e1) as [o3 e3] eqn:Hrd. cbn [fst] in Hagain. destruct Hagain as [-> |(cx & ->)].
    + destruct (bytes_eqb l (h l2)); unfold ret, fail in Ha, Hrb; injection Ha as <- <- <-; injection Hrb as <- <-.
      * eexists. split; [reflexivity|]. split; [exact (proj1 Hseen)|reflexivity].
      * right. eauto using storage_told_refl.
    + unfold panic in Ha. injection Ha as <- <- <-. exists s, (N.of_nat (q1 - s)), e1, cx, e3. exact Hrd.
  - injection Ha as <- <- <-.
    destruct o2 as [?|z| |].
    + destruct H as [H|(y & Hy & H)]; [left; exact H|discriminate Hy].
    + injection Hrb as <- <-. destruct H as [H|(y & Hy & H)]; [left; exact H|right]. injection Hy as <-. eauto.
    + destruct H as [H|(y & Hy & H)]; [left; exact H|discriminate Hy].
    + destruct H as [H|(y & Hy & H)]; [left; exact H|discriminate Hy].
  - destruct Hrun.
  - destruct Hrun.
Qed.

Lemma simz_key_part h id : @simz storage_err _ _ key_failed storage_fault storage_told same_part
  (key_part_decode blake2_128 twox_64 h id k r) (key_part_decode blake2_128 twox_64 h id ks r2).
Proof.
  destruct h; cbn [key_part_decode]; try apply simz_cut; try apply simz_check.
  eapply simz_bind; [apply simz_key_type|]. intros x x0 [Hx _]. apply simz_ret. exact Hx.
Qed.

Lemma simz_key_parts hs : forall ids, @simz storage_err _ _ key_failed storage_fault storage_told (Forall2 same_part)
  (key_parts blake2_128 twox_64 hs ids k r) (key_parts blake2_128 twox_64 hs ids ks r2).
Proof.
  induction hs as [|h hs IH]; intros [|id ids]; cbn [key_parts]; try (apply simz_ret; constructor).
  eapply simz_bind; [apply simz_key_part|]. intros x x0 Hx. eapply simz_bind; [apply IH|]. intros l l0 Hl.
  apply simz_ret. constructor; assumption.
Qed.

Lemma simz_process hs id start : @simz storage_err _ _ key_failed storage_fault storage_told same_key
  (process_key_mapped blake2_128 twox_64 hs id k start r) (process_key_mapped blake2_128 twox_64 hs id ks start r2).
Proof.
  unfold process_key_mapped. eapply simz_bind; [apply simz_local with (R := same_key)|].
  2: { intros [a q] [a2 q2] [H _]. apply simz_ret, H. }
  unfold process_key_body. eapply simz_bind with (R := same_key).
  - assert (Hmany : @simz storage_err _ _ key_failed storage_fault storage_told same_key
      (do t <- map_err (fun x => ParsingKey (PRegistry x)) (resolve_ty r id);
        match t_def t with
        | TTuple elems =>
            if Nat.eqb (List.length elems) (List.length hs) then
              do content <- key_parts blake2_128 twox_64 hs elems k r;
              ret (KTuple content (info_from_ty t))
            else fail MultipleHashesNumberMismatch
        | _ => fail MultipleHashesNotATuple
        end)
      (do t <- map_err (fun x => ParsingKey (PRegistry x)) (resolve_ty r2 id);
        match t_def t with
        | TTuple elems =>
            if Nat.eqb (List.length elems) (List.length hs) then
              do content <- key_parts blake2_128 twox_64 hs elems ks r2;
              ret (KTuple content (info_from_ty t))
            else fail MultipleHashesNumberMismatch
        | _ => fail MultipleHashesNotATuple
        end)).
    { eapply simz_bind with (R := eq).
      - intros p e. unfold map_err, resolve_ty. pose proof (fl_res r types Hr id e) as H. cbn [resolve portable]. unfold portable_resolve.
        destruct (resolve r id e) as [[t|x] e1]; cbn [fst] in H.
        + rewrite H. eauto.
        + destruct H as [(_ & cx & ->)|[H ->]]; [destruct (lookup types id); left; left; eexists; (split; [reflexivity|]); right; eauto|].
          rewrite H. right. eauto using storage_told_refl.
      - intros t ? <-. destruct (t_def t); try apply simz_fail, storage_told_refl.
        destruct (Nat.eqb _ _); [|apply simz_fail, storage_told_refl].
        eapply simz_bind; [apply simz_key_parts|]. intros l l0 Hl. apply simz_ret. cbn. auto. }
    destruct hs as [|h [|h2 hs]]; try exact Hmany.
    eapply simz_bind; [apply simz_key_part|]. intros x x0 Hx. apply simz_ret. exact Hx.
  - intros a a2 Ha. eapply simz_bind; [apply simz_get|]. intros q ? <-. rewrite (proj1 Hk).
    change (total_len ks) with (List.length key). destruct (Nat.eqb _ _); [apply simz_ret, Ha|apply simz_fail, storage_told_refl].
Qed.

Lemma simz_all id : simz False pext lax seen (decode_all_m v r id) (decode_all_m (slice_buffer value) r2 id).
Proof.
  unfold decode_all_m. eapply simz_bind; [apply simz_local with (R := seen), simz_all_body, Hv|].
  intros [a q] [a2 q2] [H _]. apply simz_ret, H.
Qed.

Lemma simz_storage entry : simz key_failed storage_fault storage_told same_entry
  (decode_as_storage_entry blake2_128 twox_64 k v entry r) (decode_as_storage_entry blake2_128 twox_64 ks (slice_buffer value) entry r2).
Proof.
  unfold decode_as_storage_entry. cbv zeta. change (total_len ks) with (List.length key). rewrite (proj1 Hk).
  destruct (Nat.ltb _ _); [apply simz_fail, storage_told_refl|].
  assert (Hval : forall id kd kd0, same_key kd kd0 -> simz key_failed storage_fault storage_told same_entry
    (do x <- map_err ParsingValue (decode_all_m v r id); ret (Storage kd x (collect_docs (en_docs entry))))
    (do x <- map_err ParsingValue (decode_all_m (slice_buffer value) r2 id); ret (Storage kd0 x (collect_docs (en_docs entry))))).
  { intros id kd kd0 Hkd. eapply simz_bind with (R := seen).
    - eapply simz_weaken with (pan' := False) (R := seen); [intros []| | | |eapply simz_map_err; [| |apply simz_all]].
      + intros x Hx. exact Hx.
      + intros x y Hx. exact Hx.
      + auto.
      + intros x Hx. right. eauto.
      + intros x y _. right. right. eauto.
    - intros x x0 [Hx _]. apply simz_ret. repeat split; assumption. }
  destruct (en_ty entry) as [vt|hs kt vt].
  - destruct (negb _); [apply simz_fail, storage_told_refl|]. apply Hval. exact I.
  - eapply simz_bind; [apply simz_process|]. intros kd kd0 Hkd. apply Hval, Hkd.
Qed.
End Store.
End Flaky.

(** *** What the same call is *)

Lemma shown_inj i j : shown i = shown j -> i = j.
Proof.
  destruct i as [[|a s] [|p l]], j as [[|a' s'] [|p' l']]; cbn [shown]; congruence.
Qed.

Lemma same_call_parts c c0 : same_call c c0 ->
  ps_info c = ps_info c0 /\ ps_variant_docs c = ps_variant_docs c0 /\
  ps_pallet_name c = ps_pallet_name c0 /\ ps_variant_name c = ps_variant_name c0 /\
  Forall2 (fun f f0 => fd_name f = fd_name f0 /\ fd_type_name f = fd_type_name f0 /\ fd_docs f = fd_docs f0 /\
    same_reading (fd_data f) (fd_data f0)) (ps_fields c) (ps_fields c0).
Proof.
  intros (y & H1 & H2). inversion H1 as [d1 d1' j1 F1 E1 E2]. subst y d1 j1. inversion H2 as [d2 d2' j2 F2 E1 E2]. subst d2 d2' j2.
  assert (Hrefl : forall l : list (fdata pdata), Forall2 (fun f f0 => fd_name f = fd_name f0 /\ fd_type_name f = fd_type_name f0 /\ fd_docs f = fd_docs f0 /\
    same_reading (fd_data f) (fd_data f0)) l l).
  { intros l. induction l; constructor; auto. repeat split. apply same_reading_refl. }
  inversion F1; subst; inversion F2; subst; cbn [ps_info ps_variant_docs ps_pallet_name ps_variant_name ps_fields]; auto 10.
  match goal with H : shown _ = shown _ |- _ => apply shown_inj in H end. subst. repeat split.
  match goal with A : Forall2 folds_field l ?m, B : Forall2 folds_field ?k ?m |- Forall2 _ l ?k =>
    rename A into HA; rename B into HB; revert HA HB; generalize l, m, k; clear end.
  intros l m. revert l. induction m as [|f m IH]; intros l k HA HB; inversion HA; subst; inversion HB; subst; constructor; auto.
  match goal with A : folds_field ?a f, B : folds_field ?b f |- _ => inversion A; subst; inversion B; subst end.
  cbn [fd_name fd_type_name fd_docs fd_data]. repeat split. eexists. split; constructor; eassumption.
Qed.
