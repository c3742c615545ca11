(** C13: documentation never influences decoding. *)
From Coq Require Import Lia.
From Verif Require Import Base Compact Types Indicators Decode Spec Api SpecLabels ProofSim.
Local Open Scope list_scope.

Definition tr (t1 t2 : ty) : Prop := undoc_ty t1 = undoc_ty t2.
Definition fr (f1 f2 : field) : Prop := undoc_field f1 = undoc_field f2.
Definition vr (v1 v2 : variant) : Prop := undoc_variant v1 = undoc_variant v2.
Definition ir (l1 l2 : list info) : Prop := undoc_infos l1 = undoc_infos l2.
Definition dr (d1 d2 : pdata) : Prop := undoc d1 = undoc d2.
Definition xr2 (x1 x2 : ext pdata) : Prop := undoc_ext x1 = undoc_ext x2.
Definition pr (p1 p2 : propagated) : Prop := checker_of p1 = checker_of p2 /\ ir (info_of p1) (info_of p2).
Definition undoc_fd (f : fdata pdata) : fdata pdata :=
  match f with FData n t _ (Ext d i) => FData n t EmptyString (Ext (undoc d) (undoc_infos i)) end.
Definition undoc_x (x : ext pdata) : ext pdata := match x with Ext d i => Ext (undoc d) (undoc_infos i) end.

Lemma tr_path t1 t2 : tr t1 t2 -> t_path t1 = t_path t2.
Proof. unfold tr, undoc_ty. intros H. injection H as -> _ _. reflexivity. Qed.

Definition defr (d1 d2 : typedef) : Prop :=
  match d1, d2 with
  | TComposite a, TComposite b => map undoc_field a = map undoc_field b
  | TVariant a, TVariant b => map undoc_variant a = map undoc_variant b
  | TComposite _, _ | TVariant _, _ => False
  | _, _ => d1 = d2
  end.

Lemma tr_def t1 t2 : tr t1 t2 -> defr (t_def t1) (t_def t2).
Proof.
  unfold tr, undoc_ty. intros H. injection H as _ _ H.
  destruct (t_def t1), (t_def t2); try discriminate; cbn; try congruence.
Qed.

Lemma hinted_path t1 t2 : tr t1 t2 -> hinted_from_type t1 = hinted_from_type t2.
Proof. intros H. unfold hinted_from_type. rewrite (tr_path _ _ H). reflexivity. Qed.

Lemma ir_app a b c d : ir a c -> ir b d -> ir (a ++ b) (c ++ d).
Proof. unfold ir, undoc_infos. rewrite !filter_app, !map_app. congruence. Qed.

Lemma info_empty_ir i : info_is_empty i = true -> undoc_infos [i] = [].
Proof. unfold info_is_empty, undoc_infos. cbn [filter]. destruct (i_path i); [reflexivity|]. rewrite andb_false_r. discriminate. Qed.

Lemma ir_one t1 t2 : tr t1 t2 -> ir [info_from_ty t1] [info_from_ty t2].
Proof.
  intros H. unfold ir, undoc_infos, info_from_ty. cbn [filter i_path]. rewrite (tr_path _ _ H).
  destruct (t_path t2); reflexivity.
Qed.

Lemma undoc_app a b : undoc_infos (a ++ b) = undoc_infos a ++ undoc_infos b.
Proof. unfold undoc_infos. rewrite filter_app, map_app. reflexivity. Qed.

Lemma push_undoc a i : undoc_infos (if info_is_empty i then a else a ++ [i]) = undoc_infos a ++ undoc_infos [i].
Proof.
  destruct (info_is_empty i) eqn:H; [|apply undoc_app]. rewrite (info_empty_ir _ H), app_nil_r. reflexivity.
Qed.

Lemma add_info_pr p1 p2 t1 t2 : pr p1 p2 -> tr t1 t2 ->
  pr (add_info p1 (info_from_ty t1)) (add_info p2 (info_from_ty t2)).
Proof.
  intros [Hc Hi] Ht. split.
  - unfold add_info. destruct (info_is_empty _), (info_is_empty _); exact Hc.
  - unfold ir, add_info in *.
    assert (Hx : forall p i, undoc_infos (info_of (if info_is_empty i then p else Propagated (checker_of p) (info_of p ++ [i])))
              = undoc_infos (info_of p) ++ undoc_infos [i]).
    { intros p i. rewrite <- push_undoc. destruct (info_is_empty i); reflexivity. }
    rewrite !Hx, Hi. f_equal. apply ir_one, Ht.
Qed.

Section Docs.
Context {E : Type}.
Variable b : buffer E.
Variable ty1 ty2 : list ty.
Hypothesis Hty : map undoc_ty ty1 = map undoc_ty ty2.
Local Notation r1 := (@portable E ty1).
Local Notation r2 := (@portable E ty2).

Lemma lookup_tr id : match lookup ty1 id, lookup ty2 id with
  | Some t1, Some t2 => tr t1 t2 | None, None => True | _, _ => False end.
Proof.
  unfold lookup. assert (Hl : List.length ty1 = List.length ty2).
  { rewrite <- (map_length undoc_ty ty1), Hty, map_length. reflexivity. }
  rewrite Hl. destruct (_ <? _)%N; [|exact I].
  pose proof (f_equal (fun l => nth_error l (N.to_nat id)) Hty) as H. cbn in H.
  rewrite !nth_error_map in H.
  destruct (nth_error ty1 _), (nth_error ty2 _); cbn [option_map] in H; try discriminate; auto.
  unfold tr. congruence.
Qed.

Lemma resolve_tr id : sim tr (resolve_ty r1 id) (resolve_ty r2 id).
Proof.
  intros p e. unfold resolve_ty, alike. cbn [resolve portable]. unfold portable_resolve.
  pose proof (lookup_tr id) as H. destruct (lookup ty1 id), (lookup ty2 id); try contradiction; repeat split; auto.
Qed.

(** *** Element types *)

Definition hr (h1 h2 : husked) : Prop :=
  ir (hu_info h1) (hu_info h2) /\ hu_checker h1 = hu_checker h2 /\ tr (hu_ty h1) (hu_ty h2) /\ hu_id h1 = hu_id h2.

Lemma fr_parts f1 f2 : fr f1 f2 -> f_name f1 = f_name f2 /\ f_ty f1 = f_ty f2 /\ f_type_name f1 = f_type_name f2.
Proof. unfold fr, undoc_field. intros H. injection H as H1 H2 H3. auto. Qed.

Lemma hint_fr f1 f2 : fr f1 f2 -> hint_from_field f1 = hint_from_field f2.
Proof.
  intros H. destruct (fr_parts _ _ H) as (H1 & _ & H3). unfold hint_from_field. rewrite H1, H3. reflexivity.
Qed.

Lemma husk_loop_sim fuel : forall t1 t2 id c a1 a2, tr t1 t2 -> ir a1 a2 ->
  sim hr (husk_loop r1 fuel t1 id c a1) (husk_loop r2 fuel t2 id c a2).
Proof.
  induction fuel as [|fuel IH]; intros t1 t2 id c a1 a2 Ht Ha; cbn [husk_loop]; [intros p e; repeat split|].
  rewrite (hinted_path _ _ Ht).
  assert (Hb : ir (if info_is_empty (info_from_ty t1) then a1 else a1 ++ [info_from_ty t1])
                  (if info_is_empty (info_from_ty t2) then a2 else a2 ++ [info_from_ty t2])).
  { unfold ir. rewrite !push_undoc. rewrite Ha. f_equal. apply ir_one, Ht. }
  revert Hb. generalize (if info_is_empty (info_from_ty t1) then a1 else a1 ++ [info_from_ty t1])
    (if info_is_empty (info_from_ty t2) then a2 else a2 ++ [info_from_ty t2]).
  intros b1 b2 Hb.
  assert (Hend : sim hr (@ret E reg_err _ (Husked b1 c t1 id)) (ret (Husked b2 c t2 id))).
  { apply sim_ret. repeat split; auto. }
  destruct (hinted_from_type t2); try exact Hend.
  pose proof (tr_def _ _ Ht) as Hd. unfold defr in Hd.
  destruct (t_def t1) as [fs1|vs1|el1|n1 el1|els1|x1|in1|s1 o1], (t_def t2) as [fs2|vs2|el2|n2 el2|els2|x2|in2|s2 o2];
    try contradiction; try discriminate; try exact Hend.
  - destruct fs1 as [|f1 [|g1 fs1]], fs2 as [|f2 [|g2 fs2]]; try discriminate; try exact Hend.
    cbn [map] in Hd. assert (Hf : fr f1 f2) by (unfold fr; congruence).
    destruct (fr_parts _ _ Hf) as (_ & Hft & _). rewrite Hft, (hint_fr _ _ Hf).
    eapply sim_bind; [apply sim_eq|]. intros c1 ? <-.
    eapply sim_bind; [apply resolve_tr|]. intros u1 u2 Hu. apply IH; assumption.
  - injection Hd as ->. eapply sim_bind; [apply sim_eq|]. intros _ _ _.
    eapply sim_bind; [apply sim_eq|]. intros c2 ? <-.
    eapply sim_bind; [apply resolve_tr|]. intros u1 u2 Hu. apply IH; assumption.
Qed.

Lemma reg_bound_same : reg_bound r1 = reg_bound r2.
Proof. cbn. rewrite <- (map_length undoc_ty ty1), Hty, map_length. reflexivity. Qed.

Lemma husk_type_sim el c : sim hr (husk_type r1 el c) (husk_type r2 el c).
Proof.
  unfold husk_type. eapply sim_bind; [apply sim_eq|]. intros c1 ? <-.
  eapply sim_bind; [apply resolve_tr|]. intros u1 u2 Hu.
  unfold husk_fuel. rewrite reg_bound_same. apply husk_loop_sim; [exact Hu|reflexivity].
Qed.

(** *** Recognised types *)

Lemma find_variant_vr vs1 : forall vs2 i, map undoc_variant vs1 = map undoc_variant vs2 ->
  match find_variant vs1 i, find_variant vs2 i with
  | Some a, Some b => vr a b | None, None => True | _, _ => False end.
Proof.
  induction vs1 as [|v1 vs1 IH]; intros [|v2 vs2] i H; try discriminate; [exact I|].
  cbn [map] in H. assert (Hv : undoc_variant v1 = undoc_variant v2) by congruence.
  assert (Hr : map undoc_variant vs1 = map undoc_variant vs2) by congruence.
  specialize (IH vs2 i Hr). unfold find_variant in *. cbn [find].
  assert (Hi : v_index v1 = v_index v2) by exact (f_equal v_index Hv). rewrite Hi.
  destruct (v_index v2 =? i)%N; [exact Hv|exact IH].
Qed.

Lemma pick_variant_sim vs1 vs2 p : map undoc_variant vs1 = map undoc_variant vs2 ->
  sim vr (pick_variant b vs1 p) (pick_variant b vs2 p).
Proof.
  intros H. unfold pick_variant. eapply sim_bind; [apply sim_eq|]. intros i ? <-.
  pose proof (find_variant_vr vs1 vs2 i H) as Hf.
  destruct (find_variant vs1 i), (find_variant vs2 i); try contradiction; [apply sim_ret, Hf|apply sim_fail].
Qed.

Lemma signature_sim f1 f2 : fr f1 f2 -> sim eq (signature_from_field r1 f1) (signature_from_field r2 f2).
Proof.
  intros Hf. destruct (fr_parts _ _ Hf) as (_ & H2 & H3). unfold signature_from_field. rewrite H2, H3.
  eapply sim_bind; [apply sim_catch, husk_type_sim|]. intros [h1|x1] [h2|x2] Hh; try contradiction; [|apply sim_eq].
  destruct Hh as (_ & _ & Ht & _). pose proof (tr_def _ _ Ht) as Hd. unfold defr in Hd.
  destruct (t_def (hu_ty h1)), (t_def (hu_ty h2)); try contradiction; try discriminate; try apply sim_eq.
  injection Hd as -> ->. eapply sim_bind; [apply sim_catch, resolve_tr|].
  intros [u1|y1] [u2|y2] Hu; try contradiction; [|apply sim_eq].
  pose proof (tr_def _ _ Hu) as Hd. unfold defr in Hd.
  destruct (t_def u1), (t_def u2); try contradiction; try discriminate; try apply sim_eq.
  injection Hd as ->. apply sim_eq.
Qed.

Definition undoc_k (k : checked) : checked :=
  match k with
  | CPalletSpecific n i vs it => CPalletSpecific n (Info EmptyString (i_path i)) (map undoc_variant vs) it
  | k => k
  end.
Definition kr (k1 k2 : checked) : Prop := undoc_k k1 = undoc_k k2.

Lemma vr_fields v1 v2 : vr v1 v2 -> v_name v1 = v_name v2 /\ map undoc_field (v_fields v1) = map undoc_field (v_fields v2).
Proof. unfold vr, undoc_variant. intros H. injection H as H1 H2 H3. auto. Qed.

Lemma checked_sim t1 t2 : tr t1 t2 -> sim kr (checked_from_type b r1 t1) (checked_from_type b r2 t2).
Proof.
  intros Ht. unfold checked_from_type. rewrite (hinted_path _ _ Ht).
  pose proof (tr_def _ _ Ht) as Hd. unfold defr in Hd.
  destruct (hinted_from_type t2); try (apply sim_ret; reflexivity).
  - destruct (t_def t1) as [fs1|vs1|el1|n1 el1|els1|x1|in1|s1 o1], (t_def t2) as [fs2|vs2|el2|n2 el2|els2|x2|in2|s2 o2];
      try contradiction; try discriminate; try (apply sim_ret; reflexivity).
    eapply sim_bind; [apply sim_eq|]. intros p ? <-.
    eapply sim_bind; [apply sim_catch, pick_variant_sim, Hd|].
    intros [v1|y1] [v2|y2] Hv; try contradiction; [|apply sim_ret; reflexivity].
    destruct (vr_fields _ _ Hv) as (_ & Hf).
    destruct (v_fields v1) as [|f1 [|g1 gs1]], (v_fields v2) as [|f2 [|g2 gs2]]; try discriminate;
      try (apply sim_ret; reflexivity).
    cbn [map] in Hf. eapply sim_bind; [apply (signature_sim f1 f2); unfold fr; congruence|]. intros s ? <-.
    apply sim_same. reflexivity.
  - destruct (t_def t1) as [fs1|vs1|el1|n1 el1|els1|x1|in1|s1 o1], (t_def t2) as [fs2|vs2|el2|n2 el2|els2|x2|in2|s2 o2];
      try contradiction; try discriminate; try (apply sim_ret; reflexivity).
    eapply sim_bind; [apply sim_eq|]. intros p ? <-.
    eapply sim_bind; [apply sim_catch, pick_variant_sim, Hd|].
    intros [v1|y1] [v2|y2] Hv; try contradiction; [|apply sim_ret; reflexivity].
    destruct (vr_fields _ _ Hv) as (Hn & Hf).
    destruct (v_fields v1) as [|f1 [|g1 gs1]], (v_fields v2) as [|f2 [|g2 gs2]]; try discriminate;
      try (apply sim_ret; reflexivity).
    cbn [map] in Hf. assert (Hfr : fr f1 f2) by (unfold fr; congruence).
    destruct (fr_parts _ _ Hfr) as (_ & Hft & _). rewrite Hft.
    eapply sim_bind; [apply sim_catch, resolve_tr|].
    intros [u1|y1] [u2|y2] Hu; try contradiction; [|apply sim_ret; reflexivity].
    rewrite (hinted_path _ _ Hu). destruct (hinted_from_type u2); try (apply sim_ret; reflexivity).
    destruct (pitem_eqb i i0); [|apply sim_ret; reflexivity].
    pose proof (tr_def _ _ Hu) as Hd2. unfold defr in Hd2.
    destruct (t_def u1) as [fs1|ws1|el1|n1 el1|els1|x1|in1|s1 o1], (t_def u2) as [fs2|ws2|el2|n2 el2|els2|x2|in2|s2 o2];
      try contradiction; try discriminate; try (apply sim_ret; reflexivity).
    eapply sim_bind; [apply sim_eq|]. intros _ _ _. apply sim_ret. unfold kr. cbn [undoc_k info_from_ty i_path].
    rewrite Hn, (tr_path _ _ Hu), Hd2. reflexivity.
Qed.

Lemma bits_sim s o id : sim eq (decode_bit_sequence b r1 s o id) (decode_bit_sequence b r2 s o id).
Proof.
  unfold decode_bit_sequence. eapply sim_bind; [apply sim_eq|]. intros p ? <-.
  eapply sim_bind with (R := eq).
  { apply sim_map_err. unfold find_bit_order_ty. eapply sim_bind; [apply resolve_tr|].
    intros t1 t2 Ht. pose proof (tr_def _ _ Ht) as Hd. unfold defr in Hd. rewrite (tr_path _ _ Ht).
    destruct (t_def t1), (t_def t2); try contradiction; try discriminate; apply sim_eq. }
  intros bo ? <-. eapply sim_bind; [apply sim_map_err, resolve_tr|].
  intros t1 t2 Ht. pose proof (tr_def _ _ Ht) as Hd. unfold defr in Hd.
  destruct (t_def t1), (t_def t2); try contradiction; try discriminate; try apply sim_eq.
  injection Hd as ->. apply sim_eq.
Qed.

(** *** All byte strings of a vector carry the same type information *)

Definition posfree {X A} (m : M E X A) : Prop := exists o, forall p e, m p e = (o, p, e).

Lemma posfree_ret {X A} (a : A) : posfree (@ret E X A a).
Proof. exists (Ok a). reflexivity. Qed.
Lemma posfree_fail {X A} (x : X) : posfree (@fail E X A x).
Proof. exists (Err x). reflexivity. Qed.
Lemma posfree_lift {X A} (x : A + X) : posfree (@lift E X A x).
Proof. destruct x; [apply posfree_ret|apply posfree_fail]. Qed.
Lemma posfree_map_err {X Y A} (g : X -> Y) (m : M E X A) : posfree m -> posfree (map_err g m).
Proof.
  intros [o H]. unfold map_err. destruct o as [a|x| |].
  - exists (Ok a). intros p e. rewrite H. reflexivity.
  - exists (Err (g x)). intros p e. rewrite H. reflexivity.
  - exists Panic. intros p e. rewrite H. reflexivity.
  - exists OutOfFuel. intros p e. rewrite H. reflexivity.
Qed.
Lemma posfree_bind {X A B} (m : M E X A) (f : A -> M E X B) : posfree m -> (forall a, posfree (f a)) -> posfree (bind m f).
Proof.
  intros [o H] Hf. unfold bind. destruct o as [a|x| |].
  - destruct (Hf a) as [o2 H2]. exists o2. intros p e. rewrite H. apply H2.
  - exists (Err x). intros p e. rewrite H. reflexivity.
  - exists Panic. intros p e. rewrite H. reflexivity.
  - exists OutOfFuel. intros p e. rewrite H. reflexivity.
Qed.

Section One.
Variable types : list ty.
Local Notation r := (@portable E types).

Lemma posfree_resolve id : posfree (resolve_ty r id).
Proof.
  unfold resolve_ty. cbn [resolve portable]. unfold portable_resolve.
  destruct (lookup types id) as [t|]; [exists (Ok t)|eexists]; reflexivity.
Qed.

Lemma posfree_husk_loop fuel : forall t id c a, posfree (husk_loop r fuel t id c a).
Proof.
  induction fuel as [|fuel IH]; intros t id c a; cbn [husk_loop]; [exists OutOfFuel; reflexivity|].
  destruct (hinted_from_type t); try apply posfree_ret.
  destruct (t_def t) as [[|f [|]]| | | | | |inner|]; try apply posfree_ret.
  - apply posfree_bind; [apply posfree_map_err, posfree_lift|]. intros c1.
    apply posfree_bind; [apply posfree_resolve|]. intros t1. apply IH.
  - apply posfree_bind; [apply posfree_map_err, posfree_lift|]. intros _.
    apply posfree_bind; [apply posfree_map_err, posfree_lift|]. intros c1.
    apply posfree_bind; [apply posfree_resolve|]. intros t1. apply IH.
Qed.

Lemma posfree_husk el c : posfree (husk_type r el c).
Proof.
  unfold husk_type. apply posfree_bind; [apply posfree_map_err, posfree_lift|]. intros c1.
  apply posfree_bind; [apply posfree_resolve|]. intros t1. apply posfree_husk_loop.
Qed.

(** The type information of a decoded sequence is fixed by the type. *)
Definition fixed_info (m : M E parser_err (ext pdata)) (inf0 : list info) : Prop :=
  forall p e x q e' inf s, m p e = (Ok x, q, e') -> x_data x = DSequence inf s -> inf = inf0.

Lemma fixed_bind_ret {A} (m : M E parser_err A) (f : A -> ext pdata) inf0 :
  (forall a inf s, x_data (f a) <> DSequence inf s) -> fixed_info (do x <- m; ret (f x)) inf0.
Proof.
  intros Hf p e x q e' inf s. unfold bind, ret. destruct (m p e) as [[[a|y| |] q1] e1]; try discriminate.
  intros H; injection H as <- _ _. intros Hx. destruct (Hf _ _ _ Hx).
Qed.

Lemma fixed_bind {A} (m : M E parser_err A) f inf0 :
  (forall a, fixed_info (f a) inf0) -> fixed_info (bind m f) inf0.
Proof.
  intros Hf p e x q e' inf s. unfold bind. destruct (m p e) as [[[a|y| |] q1] e1]; try discriminate.
  intros H Hx. exact (Hf a _ _ _ _ _ _ _ H Hx).
Qed.

Variable dec : ty_input -> propagated -> M E parser_err (ext pdata).
Hypothesis Hdec : forall i p, exists inf0, fixed_info (dec i p) inf0.

Lemma fixed_elements el p : exists inf0, forall n, fixed_info (decode_elements_set r dec el n p) inf0.
Proof.
  destruct (posfree_husk el (checker_of p)) as [o Ho].
  exists (match o with Ok hu => hu_info hu | _ => [] end). intros n. unfold decode_elements_set.
  apply fixed_bind. intros _ q e x q' e' inf s. unfold bind at 1, map_err. rewrite Ho.
  destruct o as [hu|y| |]; try discriminate.
  destruct (n =? 0)%N.
  - unfold ret. intros H; injection H as <- _ _. discriminate.
  - unfold bind, ret. destruct (elements_loop dec (N.to_nat n) hu q e) as [[[l|y| |] q1] e1]; try discriminate.
    intros H; injection H as <- _ _. cbn [x_data]. destruct (wrap_sequence l); [|discriminate].
    intros H; injection H as <- _. reflexivity.
Qed.

Lemma fixed_any (m : M E parser_err (ext pdata)) :
  (forall inf0, fixed_info m inf0) -> exists inf0, fixed_info m inf0.
Proof. intros H. exists []. apply H. Qed.

Lemma fixed_fail x inf0 : fixed_info (fail x) inf0.
Proof. intros p e y q e' inf s H. discriminate. Qed.

Lemma prim_shape x c p e d q e' inf s : decode_primitive b x c p e = (Ok d, q, e') -> d <> DSequence inf s.
Proof.
  destruct x; cbn [decode_primitive]; unfold block_compact, parse_uint, reject_compact_m, decode_str, bind, ret, fail, set_pos, get_pos, lift, map_err;
  repeat match goal with
  | |- context [match ?x with _ => _ end] => destruct x; try discriminate
  end; try (intros H; injection H as <- _ _; discriminate).
Qed.

Lemma fixed_plain t id p : exists inf0, fixed_info (decode_plain b r dec t id p) inf0.
Proof.
  unfold decode_plain. destruct (t_def t) as [fs|vs|el|len el|els|x|inner|s o].
  - apply fixed_any. intros inf0. apply fixed_bind_ret. discriminate.
  - apply fixed_any. intros inf0. apply fixed_bind. intros _.
    destruct vs; [|apply fixed_bind_ret; discriminate].
    intros q e y q' e' inf s. unfold ret. intros H; injection H as <- _ _. discriminate.
  - destruct (fixed_elements el (Propagated (drop_cycle_check (checker_of p)) (info_of p))) as [inf0 H].
    exists inf0. apply fixed_bind. exact H.
  - destruct (fixed_elements el p) as [inf0 H]. exists inf0. apply H.
  - apply fixed_any. intros inf0. destruct els as [|i1 [|i2 ids]]; try (apply fixed_bind_ret; discriminate).
    apply fixed_bind. intros _. apply fixed_bind_ret; discriminate.
  - apply fixed_any. intros inf0 q e y q' e' inf s. unfold bind, ret.
    destruct (decode_primitive b x (checker_of p) q e) as [[[d|z| |] q1] e1] eqn:Hp; try discriminate.
    intros H; injection H as <- _ _. cbn [x_data]. intros ->. eapply prim_shape in Hp. destruct (Hp eq_refl).
  - destruct (check_id (with_compact_at (checker_of p) id) inner) as [c|y] eqn:Hc.
    + destruct (Hdec (Symbol inner) (Propagated c (info_of p))) as [inf0 H]. exists inf0.
      apply fixed_bind. intros _. unfold lift_p. cbn [lift]. intros q e x q' e' inf s. unfold bind, map_err, ret.
      apply H.
    + exists []. apply fixed_bind. intros _. intros q e x q' e' inf s. discriminate.
  - apply fixed_any. intros inf0. apply fixed_bind. intros _. intros q e y q' e' inf s'. unfold bind, ret.
    destruct (decode_bit_sequence b r s o id q e) as [[[d|z| |] q1] e1] eqn:Hp; try discriminate.
    intros H; injection H as <- _ _. cbn [x_data]. intros ->. revert Hp.
    unfold decode_bit_sequence, bind, ret, fail, map_err, get_pos.
    repeat match goal with
    | |- context [match ?x with _ => _ end] => destruct x; try discriminate
    end.
Qed.

Lemma fixed_body i p : exists inf0, fixed_info (decode_body b r dec i p) inf0.
Proof.
  assert (Hi : posfree (match i with
           | Resolved t id => ret (t, id)
           | Symbol id => do t <- map_err PRegistry (resolve_ty r id); ret (t, id)
           end : M E parser_err (ty * N))).
  { destruct i; [apply posfree_ret|]. apply posfree_bind; [apply posfree_map_err, posfree_resolve|].
    intros t. apply posfree_ret. }
  destruct Hi as [o Ho]. unfold decode_body. destruct o as [[t id]|y| |];
    try (exists []; intros q e x q' e' inf s; unfold bind at 1; rewrite Ho; discriminate).
  destruct (fixed_plain t id (add_info p (info_from_ty t))) as [inf0 H]. exists inf0.
  intros q e x q' e' inf s. unfold bind at 1. rewrite Ho. revert q e x q' e' inf s.
  apply fixed_bind. intros k. destruct k; cbn [decode_checked].
  - exact H.
  - intros q e x q' e' inf s. unfold parse_fixed, block_compact, bind, ret, fail.
    destruct (compact_at _); [discriminate|]. destruct (cut_fixed b k q e) as [[[]] ]; try discriminate.
    intros Hx; injection Hx as <- _ _. discriminate.
  - apply fixed_bind. intros _. intros q e x q' e' inf s. unfold special_case_era, bind, ret, fail, get_pos, set_pos.
    destruct (read_slice b q 1 q e) as [[[l1|y| |] q1] e1]; try discriminate.
    destruct (era_decode_all l1).
    { intros Hx; injection Hx as <- _ _; discriminate. }
    destruct (read_slice b q 2 q1 e1) as [[[l2|y| |] q2] e2]; try discriminate.
    destruct (era_decode_all l2); [|discriminate]. intros Hx; injection Hx as <- _ _; discriminate.
  - apply fixed_bind. intros _. intros q e x q' e' inf s. unfold special_case_h256, bind, ret.
    destruct (cut_and_decode b H256_LEN _ _ q e) as [[[]] ]; try discriminate.
    intros Hx; injection Hx as <- _ _; discriminate.
  - apply fixed_bind. intros _. apply fixed_bind_ret. intros v inf s. cbn [x_data]. destruct item; discriminate.
  - unfold parse_per. intros q e x q' e' inf s. unfold bind at 1, bind at 1.
    match goal with |- context [match ?m q e with _ => _ end] => destruct (m q e) as [[[n|y| |] q1] e1] end; try discriminate.
    unfold ret. intros Hx; injection Hx as <- _ _. discriminate.
Qed.
End One.

Lemma fixed_decode types fuel : forall i p, exists inf0, fixed_info (decode b (@portable E types) fuel i p) inf0.
Proof.
  induction fuel as [|fuel IH]; intros i p.
  - exists []. intros q e x q' e' inf s. discriminate.
  - cbn [decode]. apply fixed_body, IH.
Qed.

(** *** Collecting *)

Definition hom (l : list pdata) : Prop := exists inf0, forall inf s, In (DSequence inf s) l -> inf = inf0.

Lemma info_eqb_refl i : info_eqb i i = true.
Proof.
  unfold info_eqb. rewrite String.eqb_refl. cbn [andb]. induction (i_path i) as [|x l IH]; [reflexivity|].
  cbn [strs_eqb]. rewrite String.eqb_refl. exact IH.
Qed.
Lemma infos_eqb_refl l : infos_eqb l l = true.
Proof. induction l as [|i l IH]; [reflexivity|]. cbn [infos_eqb]. rewrite info_eqb_refl. exact IH. Qed.

Lemma undoc_uint d w n s : undoc d = DUInt w n s -> d = DUInt w n s.
Proof. destruct d; cbn [undoc]; try discriminate; auto; try (destruct v; discriminate); destruct c; discriminate. Qed.
Lemma undoc_uint' d w n s : DUInt w n s = undoc d -> d = DUInt w n s.
Proof. intros H. symmetry in H. apply undoc_uint, H. Qed.

Lemma husk_uint_dr w l1 : forall l2, map undoc l1 = map undoc l2 -> husk_set_uint w l1 = husk_set_uint w l2.
Proof.
  induction l1 as [|d1 l1 IH]; intros [|d2 l2] H; try discriminate; [reflexivity|].
  cbn [map] in H. assert (Hd : undoc d1 = undoc d2) by congruence.
  assert (Hl : map undoc l1 = map undoc l2) by congruence. clear H.
  destruct d1; try (cbn [undoc] in Hd; apply undoc_uint' in Hd; subst d2; cbn [husk_set_uint];
    rewrite (IH _ Hl); reflexivity);
  destruct d2; try reflexivity; cbn [undoc] in Hd; try discriminate;
    try (destruct v; discriminate); try (destruct c; discriminate).
Qed.

(** What is taken from a byte string or an empty sequence. *)
Definition item (d : pdata) : option bytes :=
  match d with
  | DSequence _ (SeqU U8 a) => Some a
  | DSequenceRaw _ [] => Some []
  | _ => None
  end.

Lemma husk_vec_hom l inf0 : (forall inf s, In (DSequence inf s) l -> inf = inf0) ->
  forall inner, (inner = None \/ inner = Some inf0) ->
  husk_set_vec l inner = match map_opt item l with
    | Some ls => Some (ls, match inner with
                           | Some i => Some i
                           | None => if existsb (fun d => match d with DSequence _ (SeqU U8 _) => true | _ => false end) l
                                     then Some inf0 else None
                           end)
    | None => None end.
Proof.
  induction l as [|d l IH]; intros H inner Hi; [destruct Hi; subst; reflexivity|].
  assert (Hl : forall inf s, In (DSequence inf s) l -> inf = inf0) by (intros inf s Hin; apply (H inf s); right; exact Hin).
  specialize (IH Hl). cbn [husk_set_vec map_opt existsb].
  destruct d; try reflexivity.
  - destruct s as [w a|]; [|reflexivity]. destruct w; try reflexivity. cbn [item orb].
    assert (element_info = inf0) by (eapply H; left; reflexivity). subst element_info.
    destruct Hi as [-> | ->]; [|rewrite infos_eqb_refl];
      rewrite (IH (Some inf0)) by auto; destruct (map_opt item l); reflexivity.
  - destruct l0 as [|d0 l0]; [|reflexivity]. cbn [item orb].
    rewrite (IH inner Hi). destruct (map_opt item l); reflexivity.
Qed.

Lemma item_dr d1 d2 : undoc d1 = undoc d2 -> item d1 = item d2.
Proof.
  intros H. destruct d1, d2; try reflexivity; cbn [undoc] in H; try discriminate H;
    try (destruct v; discriminate H); try (destruct c; discriminate H); try (destruct v0; discriminate H).
  - injection H as _ H. destruct s, s0; try discriminate H; cbn in H; [|reflexivity].
    injection H as -> ->. reflexivity.
  - injection H as _ H. destruct l, l0; try discriminate H; reflexivity.
Qed.

Lemma items_dr l1 : forall l2, map undoc l1 = map undoc l2 -> map_opt item l1 = map_opt item l2.
Proof.
  induction l1 as [|d1 l1 IH]; intros [|d2 l2] H; try discriminate; [reflexivity|].
  cbn [map] in H. assert (Hd : undoc d1 = undoc d2) by congruence.
  assert (Hl : map undoc l1 = map undoc l2) by congruence.
  cbn [map_opt]. rewrite (item_dr _ _ Hd), (IH _ Hl). reflexivity.
Qed.

Lemma wrap_dr l1 l2 : map undoc l1 = map undoc l2 -> hom l1 -> hom l2 ->
  option_map undoc_seq (wrap_sequence l1) = option_map undoc_seq (wrap_sequence l2).
Proof.
  intros H [i1 H1] [i2 H2].
  destruct l1 as [|d1 l1], l2 as [|d2 l2]; try discriminate; [reflexivity|].
  assert (Hd : undoc d1 = undoc d2) by (cbn in H; congruence).
  assert (Hvec : forall e1 a1 e2 a2, d1 = DSequence e1 (SeqU U8 a1) -> d2 = DSequence e2 (SeqU U8 a2) ->
    option_map undoc_seq (wrap_sequence (d1 :: l1)) = option_map undoc_seq (wrap_sequence (d2 :: l2))).
  { intros e1 a1 e2 a2 Hd1 Hd2. subst. unfold wrap_sequence.
    rewrite (husk_vec_hom _ _ H1 None (or_introl eq_refl)), (husk_vec_hom _ _ H2 None (or_introl eq_refl)).
    rewrite (items_dr _ _ H). cbn [existsb orb].
    assert (e1 = i1) by (eapply H1; left; reflexivity). assert (e2 = i2) by (eapply H2; left; reflexivity). subst.
    cbn [undoc] in Hd. injection Hd as Hi _.
    destruct (map_opt item (DSequence i2 (SeqU U8 a2) :: l2)); [|reflexivity].
    cbn [option_map fst snd undoc_seq]. rewrite Hi. reflexivity. }
  destruct d1; try (cbn [undoc] in Hd; apply undoc_uint' in Hd; subst d2; unfold wrap_sequence;
    rewrite (husk_uint_dr _ _ _ H); reflexivity);
  destruct d2; try reflexivity; cbn [undoc] in Hd; try discriminate Hd;
    try (destruct v; discriminate Hd); try (destruct c; discriminate Hd); try (destruct v0; discriminate Hd).
  injection Hd as Hi Hs. destruct s as [w1 a1|], s0 as [w2 a2|]; try discriminate Hs; [|reflexivity].
  cbn [undoc_seq] in Hs. injection Hs as -> ->. destruct w2; try reflexivity. eapply Hvec; reflexivity.
Qed.

(** *** The decoder *)

Section Body.
Variable dec1 dec2 : ty_input -> propagated -> M E parser_err (ext pdata).

Definition inr1 (i1 i2 : ty_input) : Prop :=
  match i1, i2 with
  | Resolved t1 a, Resolved t2 c => tr t1 t2 /\ a = c
  | Symbol a, Symbol c => a = c
  | _, _ => False
  end.
Hypothesis Hdec : forall i1 i2 p1 p2, inr1 i1 i2 -> pr p1 p2 -> sim xr2 (dec1 i1 p1) (dec2 i2 p2).
Hypothesis Hfix1 : forall i p, exists inf0, fixed_info (dec1 i p) inf0.
Hypothesis Hfix2 : forall i p, exists inf0, fixed_info (dec2 i p) inf0.

Definition fdr (l1 l2 : list (fdata pdata)) : Prop := map undoc_fd l1 = map undoc_fd l2.

Lemma xr2_parts x1 x2 : xr2 x1 x2 -> dr (x_data x1) (x_data x2) /\ ir (x_info x1) (x_info x2).
Proof. unfold xr2, undoc_ext. intros H. injection H as H1 H2. split; assumption. Qed.

Lemma for_field_fr c f1 f2 : fr f1 f2 -> for_field c f1 = for_field c f2.
Proof.
  intros Hf. unfold for_field, update_for_field. destruct (fr_parts _ _ Hf) as (_ & Ht & _).
  rewrite Ht, (hint_fr _ _ Hf). reflexivity.
Qed.

Lemma pr_refl p : pr p p.
Proof. split; reflexivity. Qed.

Lemma fields_loop_dr fs1 : forall fs2 c, map undoc_field fs1 = map undoc_field fs2 ->
  sim fdr (fields_loop dec1 fs1 c) (fields_loop dec2 fs2 c).
Proof.
  induction fs1 as [|f1 fs1 IH]; intros [|f2 fs2] c H; try discriminate; cbn [fields_loop]; [apply sim_ret; reflexivity|].
  cbn [map] in H. assert (Hf : fr f1 f2) by (unfold fr; congruence).
  assert (Hs : map undoc_field fs1 = map undoc_field fs2) by congruence.
  destruct (fr_parts _ _ Hf) as (Hn & Ht & Htn). rewrite (for_field_fr c _ _ Hf), Hn, Ht, Htn.
  eapply sim_bind; [apply sim_eq|]. intros p ? <-.
  eapply sim_bind; [apply (Hdec (Symbol (f_ty f2)) (Symbol (f_ty f2)) p p); [reflexivity|apply pr_refl]|].
  intros x1 x2 Hx. eapply sim_bind; [apply IH, Hs|]. intros l1 l2 Hl. apply sim_ret.
  destruct (xr2_parts _ _ Hx) as [Hd Hi]. unfold fdr in *. cbn [map undoc_fd]. rewrite Hl.
  destruct x1, x2. cbn in *. unfold dr, ir in *. congruence.
Qed.

Lemma map_len {A B} (f : A -> B) l1 l2 : map f l1 = map f l2 -> List.length l1 = List.length l2.
Proof. intros H. rewrite <- (map_length f l1), H, map_length. reflexivity. Qed.

Lemma decode_fields_dr fs1 fs2 c : map undoc_field fs1 = map undoc_field fs2 ->
  sim fdr (decode_fields dec1 fs1 c) (decode_fields dec2 fs2 c).
Proof.
  intros H. unfold decode_fields.
  destruct fs1 as [|f1 [|g1 fs1]], fs2 as [|f2 [|g2 fs2]]; try discriminate; try (apply fields_loop_dr, H).
  eapply sim_bind; [apply sim_eq|]. intros _ _ _. apply fields_loop_dr, H.
Qed.

Definition undoc_v (v : vdata pdata) := match v with VData n _ fs => (n, map undoc_fd fs) end.

Lemma decode_variant_dr vs1 vs2 : map undoc_variant vs1 = map undoc_variant vs2 ->
  sim (fun v1 v2 => undoc_v v1 = undoc_v v2) (decode_variant b dec1 vs1) (decode_variant b dec2 vs2).
Proof.
  intros H. unfold decode_variant. eapply sim_bind; [apply sim_eq|]. intros p ? <-.
  eapply sim_bind; [apply pick_variant_sim, H|]. intros v1 v2 Hv. destruct (vr_fields _ _ Hv) as (Hn & Hf).
  eapply sim_bind; [apply sim_eq|]. intros _ _ _.
  eapply sim_bind; [apply decode_fields_dr, Hf|]. intros l1 l2 Hl. apply sim_ret. cbn [undoc_v].
  rewrite Hn, Hl. reflexivity.
Qed.

Lemma elements_dr hu1 hu2 n : hr hu1 hu2 ->
  sim (fun l1 l2 => map undoc l1 = map undoc l2) (elements_loop dec1 n hu1) (elements_loop dec2 n hu2).
Proof.
  intros (Hi & Hc & Ht & Hid). induction n as [|n IH]; cbn [elements_loop]; [apply sim_ret; reflexivity|].
  eapply sim_bind; [apply Hdec; [split; assumption|rewrite Hc; apply pr_refl]|]. intros x1 x2 Hx.
  eapply sim_bind; [apply IH|]. intros l1 l2 Hl. apply sim_ret. cbn [map].
  destruct (xr2_parts _ _ Hx) as [Hd _]. unfold dr in Hd. congruence.
Qed.

Lemma elements_hom (dec : ty_input -> propagated -> M E parser_err (ext pdata)) hu inf0 n : fixed_info (dec (Resolved (hu_ty hu) (hu_id hu)) (with_checker (hu_checker hu))) inf0 ->
  forall p e l q e', elements_loop dec n hu p e = (Ok l, q, e') -> forall inf s, In (DSequence inf s) l -> inf = inf0.
Proof.
  intros Hf. induction n as [|n IH]; intros p e l q e'; cbn [elements_loop]; unfold bind, ret.
  - intros H; injection H as <- _ _. intros inf s Hin. destruct Hin.
  - destruct (dec _ _ p e) as [[[x|y| |] q1] e1] eqn:Hx; try discriminate.
    destruct (elements_loop dec n hu q1 e1) as [[[tl|y| |] q2] e2] eqn:Htl; try discriminate.
    intros H; injection H as <- _ _. intros inf s [Hin|Hin]; [eapply Hf; eauto|eapply IH; eauto].
Qed.

Lemma elements_set_dr el n p1 p2 : pr p1 p2 ->
  sim xr2 (decode_elements_set r1 dec1 el n p1) (decode_elements_set r2 dec2 el n p2).
Proof.
  intros [Hc Hi]. unfold decode_elements_set. rewrite Hc. eapply sim_bind; [apply sim_eq|]. intros _ _ _.
  eapply sim_bind; [apply sim_map_err, husk_type_sim|]. intros hu1 hu2 Hh.
  pose proof Hh as (Hhi & _). destruct (n =? 0)%N.
  { apply sim_ret. unfold xr2, undoc_ext. cbn [x_data x_info undoc map]. unfold ir in *. congruence. }
  intros p e. pose proof (elements_dr hu1 hu2 (N.to_nat n) Hh p e) as Hs. unfold bind, ret, alike in *.
  destruct (elements_loop dec1 (N.to_nat n) hu1 p e) as [[o1 q1] e1] eqn:H1.
  destruct (elements_loop dec2 (N.to_nat n) hu2 p e) as [[o2 q2] e2] eqn:H2.
  cbn [fst snd] in Hs. destruct Hs as (-> & -> & Ho).
  destruct o1, o2; cbn in Ho; try contradiction; cbn [fst snd]; repeat split; auto.
  cbn [orel]. unfold xr2, undoc_ext. cbn [x_data x_info].
  destruct (Hfix1 (Resolved (hu_ty hu1) (hu_id hu1)) (with_checker (hu_checker hu1))) as [i1 Hf1].
  destruct (Hfix2 (Resolved (hu_ty hu2) (hu_id hu2)) (with_checker (hu_checker hu2))) as [i2 Hf2].
  pose proof (elements_hom _ _ _ _ Hf1 _ _ _ _ _ H1) as Hh1.
  pose proof (elements_hom _ _ _ _ Hf2 _ _ _ _ _ H2) as Hh2.
  pose proof (wrap_dr _ _ Ho (ex_intro _ i1 Hh1) (ex_intro _ i2 Hh2)) as Hw.
  unfold ir in *. rewrite Hi. f_equal.
  destruct (wrap_sequence a), (wrap_sequence a0); try discriminate Hw; cbn [undoc].
  - injection Hw as Hw. congruence.
  - congruence.
Qed.

Lemma tuple_loop_dr ids : forall c,
  sim (fun l1 l2 => map undoc_x l1 = map undoc_x l2) (tuple_loop r1 dec1 ids c) (tuple_loop r2 dec2 ids c).
Proof.
  induction ids as [|i ids IH]; intros c; cbn [tuple_loop]; [apply sim_ret; reflexivity|].
  eapply sim_bind; [apply sim_map_err, resolve_tr|]. intros t1 t2 Ht.
  assert (Hf : for_ty c t1 i = for_ty c t2 i).
  { unfold for_ty, update_for_ty, update_from_path. rewrite (tr_path _ _ Ht). reflexivity. }
  rewrite Hf. eapply sim_bind; [apply sim_eq|]. intros p ? <-.
  eapply sim_bind; [apply Hdec; [split; [exact Ht|reflexivity]|apply pr_refl]|]. intros x1 x2 Hx.
  eapply sim_bind; [apply IH|]. intros l1 l2 Hl. apply sim_ret. cbn [map]. rewrite Hl.
  destruct (xr2_parts _ _ Hx) as [Hd Hi]. destruct x1, x2. cbn in *. unfold dr, ir in *. congruence.
Qed.

Lemma xr2_ext d1 d2 p1 p2 : dr d1 d2 -> pr p1 p2 -> xr2 (Ext d1 (info_of p1)) (Ext d2 (info_of p2)).
Proof. intros Hd [_ Hi]. unfold xr2, undoc_ext, dr, ir in *. cbn [x_data x_info]. congruence. Qed.

Lemma decode_plain_dr t1 t2 id p1 p2 : tr t1 t2 -> pr p1 p2 ->
  sim xr2 (decode_plain b r1 dec1 t1 id p1) (decode_plain b r2 dec2 t2 id p2).
Proof.
  intros Ht Hp. pose proof (tr_def _ _ Ht) as Hd. unfold defr in Hd. pose proof Hp as [Hc Hi].
  unfold decode_plain. rewrite Hc.
  destruct (t_def t1) as [fs1|vs1|el1|n1 el1|els1|x1|in1|s1 o1], (t_def t2) as [fs2|vs2|el2|n2 el2|els2|x2|in2|s2 o2];
    try contradiction; try discriminate.
  - eapply sim_bind; [apply decode_fields_dr, Hd|]. intros l1 l2 Hl. apply sim_ret, xr2_ext; [|exact Hp].
    unfold dr. cbn [undoc]. f_equal. exact Hl.
  - eapply sim_bind; [apply sim_eq|]. intros _ _ _.
    destruct vs1 as [|v1 vs1], vs2 as [|v2 vs2]; try discriminate; [apply sim_ret, xr2_ext; [reflexivity|exact Hp]|].
    eapply sim_bind; [apply decode_variant_dr, Hd|]. intros w1 w2 Hw. apply sim_ret, xr2_ext; [|exact Hp].
    unfold dr. destruct w1, w2. cbn [undoc_v] in Hw. injection Hw as -> Hw. cbn [undoc].
    unfold undoc_fd in Hw. rewrite Hw. reflexivity.
  - injection Hd as ->. eapply sim_bind; [apply sim_eq|]. intros n ? <-. apply elements_set_dr.
    split; [reflexivity|exact Hi].
  - injection Hd as -> ->. apply elements_set_dr, Hp.
  - injection Hd as ->. destruct els2 as [|i1 [|i2 ids]];
      try (eapply sim_bind; [apply tuple_loop_dr|]; intros l1 l2 Hl; apply sim_ret, xr2_ext; [|exact Hp];
           unfold dr; cbn [undoc]; f_equal; exact Hl).
    eapply sim_bind; [apply sim_eq|]. intros _ _ _.
    eapply sim_bind; [apply tuple_loop_dr|]; intros l1 l2 Hl; apply sim_ret, xr2_ext; [|exact Hp];
           unfold dr; cbn [undoc]; f_equal; exact Hl.
  - injection Hd as ->. eapply sim_bind; [apply sim_eq|]. intros d ? <-.
    apply sim_ret, xr2_ext; [reflexivity|exact Hp].
  - injection Hd as ->. eapply sim_bind; [apply sim_eq|]. intros _ _ _.
    eapply sim_bind; [apply sim_eq|]. intros c ? <-. apply Hdec; [reflexivity|]. split; [reflexivity|exact Hi].
  - injection Hd as -> ->. eapply sim_bind; [apply sim_eq|]. intros _ _ _.
    eapply sim_bind; [apply bits_sim|]. intros d ? <-. apply sim_ret, xr2_ext; [reflexivity|exact Hp].
Qed.

Lemma decode_body_dr i1 i2 p1 p2 : inr1 i1 i2 -> pr p1 p2 ->
  sim xr2 (decode_body b r1 dec1 i1 p1) (decode_body b r2 dec2 i2 p2).
Proof.
  intros Hin Hp. unfold decode_body.
  eapply sim_bind with (R := fun a c => tr (fst a) (fst c) /\ snd a = snd c).
  { destruct i1 as [t1 a|a], i2 as [t2 c|c]; cbn in Hin; try contradiction.
    - apply sim_ret. exact Hin.
    - subst c. eapply sim_bind; [apply sim_map_err, resolve_tr|]. intros t1 t2 Ht. apply sim_ret. split; auto. }
  intros [t1 id] [t2 ?] [Ht Hid]. cbn [fst snd] in *. subst.
  eapply sim_bind; [apply checked_sim, Ht|]. intros k1 k2 Hk.
  pose proof (add_info_pr _ _ _ _ Hp Ht) as Hp2. revert Hp2.
  generalize (add_info p1 (info_from_ty t1)) (add_info p2 (info_from_ty t2)). clear Hp p1 p2. intros p1 p2 Hp.
  pose proof Hp as [Hc _]. unfold kr in Hk.
  destruct k1, k2; cbn [undoc_k] in Hk; try discriminate Hk; cbn [decode_checked]; rewrite ?Hc.
  - apply decode_plain_dr; assumption.
  - injection Hk as ->. eapply sim_bind; [apply sim_eq|]. intros d ? <-. apply sim_ret, xr2_ext; [reflexivity|exact Hp].
  - eapply sim_bind; [apply sim_eq|]. intros _ _ _.
    eapply sim_bind; [apply sim_eq|]. intros d ? <-. apply sim_ret, xr2_ext; [reflexivity|exact Hp].
  - eapply sim_bind; [apply sim_eq|]. intros _ _ _.
    eapply sim_bind; [apply sim_eq|]. intros d ? <-. apply sim_ret, xr2_ext; [reflexivity|exact Hp].
  - injection Hk as -> Hpath Hvs ->. eapply sim_bind; [apply sim_eq|]. intros _ _ _.
    eapply sim_bind; [apply decode_variant_dr, Hvs|]. intros w1 w2 Hw. apply sim_ret, xr2_ext; [|exact Hp].
    unfold dr. destruct w1 as [n1 dc1 gs1], w2 as [n2 dc2 gs2]. cbn [undoc_v] in Hw. injection Hw as -> Hw.
    cbv beta iota zeta delta [Types.vd_docs Types.vd_name Types.vd_fields]. destruct item1; cbn [undoc]; unfold undoc_fd in Hw; rewrite Hw, Hpath; reflexivity.
  - injection Hk as ->. eapply sim_bind; [apply sim_eq|]. intros d ? <-. apply sim_ret, xr2_ext; [reflexivity|exact Hp].
Qed.
End Body.

Lemma decode_dr fuel : forall i1 i2 p1 p2, inr1 i1 i2 -> pr p1 p2 ->
  sim xr2 (decode b r1 fuel i1 p1) (decode b r2 fuel i2 p2).
Proof.
  induction fuel as [|fuel IH]; intros i1 i2 p1 p2 Hi Hp; [intros p e; repeat split|].
  cbn [decode]. apply decode_body_dr; auto; intros; apply fixed_decode.
Qed.

Theorem docs_same id pos e :
  alike xr2 (decode_as_type_at_position b r1 id pos e) (decode_as_type_at_position b r2 id pos e).
Proof.
  unfold decode_as_type_at_position, decode_with_type, decode_fuel. rewrite reg_bound_same.
  apply decode_dr; [reflexivity|apply pr_refl].
Qed.
End Docs.
