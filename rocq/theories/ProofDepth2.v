(** C68: levels of types that do not contain themselves. *)
From Coq Require Import Lia.
From Verif Require Import Base Compact Types Indicators Decode Spec SpecWf SpecDepth ProofBase ProofPeel ProofSpec ProofRel ProofWf ProofDepth ProofSize ProofSee.
Local Open Scope list_scope.

Section Types.
Variable types : list ty.
Local Notation view := (view types).
Local Notation lookup := (lookup types).

Definition upto (id : N) (n : nat) : Prop := forall k, below types id k -> (k <= n)%nat.

Lemma upto_step id t j n : upto id n -> lookup id = Some t -> mentions t j -> exists m, n = S m /\ upto j m.
Proof.
  intros H Hl Hm. destruct n as [|m].
  - pose proof (H 1%nat (Further _ _ _ _ _ Hl Hm (Here _ _))). lia.
  - exists m. split; [reflexivity|]. intros k Hk. pose proof (H (S k) (Further _ _ _ _ _ Hl Hm Hk)). lia.
Qed.

Definition good_value (v : value) : Prop := forall elem h id d l n, upto id n -> view elem h id v = Some (d, l) -> (levels d <= S n)%nat.

Lemma view_list_max {A B} (g : A -> value -> option B) (s : B -> nat) n ids vs l :
  view_list g ids vs = Some l ->
  (forall i v x, In i ids -> In v vs -> g i v = Some x -> (s x <= n)%nat) ->
  (list_max (map s l) <= n)%nat.
Proof.
  revert ids l; induction vs as [|v vs IH]; intros [|i ids] l; cbn [view_list]; try discriminate.
  - intros H _; injection H as <-. cbn. lia.
  - destruct (g i v) as [x|] eqn:Hg; [|discriminate].
    fold (view_list g). destruct (view_list g ids vs) as [r|] eqn:Hr; [|discriminate].
    intros H Hs; injection H as <-. rewrite list_max_map.
    pose proof (Hs i v x (or_introl eq_refl) (or_introl eq_refl) Hg) as H1.
    specialize (IH ids r Hr (fun i v x Hi Hv => Hs i v x (or_intror Hi) (or_intror Hv))). lia.
Qed.

Lemma fields_max h fs vs l n : fields_view types h fs vs = Some l ->
  (forall v, In v vs -> good_value v) -> (forall f, In f fs -> exists m, n = S m /\ upto (f_ty f) m) ->
  (list_max (map (fun f => levels (x_data (fd_data f))) l) <= n)%nat.
Proof.
  intros H Hs Hf. eapply (view_list_max _ (fun f => levels (x_data (fd_data f)))); [exact H|].
  intros f v x Hi Hin Hx. cbv beta in Hx. destruct (view false _ (f_ty f) v) as [[d l0]|] eqn:Hv; [|discriminate]. injection Hx as <-.
  cbn [field_form fd_data x_data fst]. destruct (Hf f Hi) as (m & -> & Hm). exact (Hs v Hin _ _ _ _ _ _ Hm Hv).
Qed.

Lemma elems_max el vs ds n : elems_view types el vs = Some ds -> (forall v, In v vs -> good_value v) -> upto el n ->
  (list_max (map levels ds) <= S n)%nat.
Proof.
  revert ds; induction vs as [|v vs IH]; intros ds; cbn [elems_view].
  - intros H _ _; injection H as <-. cbn. lia.
  - destruct (view true HNone el v) as [[d l]|] eqn:Hg; [|discriminate].
    fold (elems_view types el). destruct (elems_view types el vs) as [r|] eqn:Hr; [|discriminate].
    intros H Hs Hu; injection H as <-. rewrite list_max_map.
    pose proof (Hs v (or_introl eq_refl) _ _ _ _ _ _ Hu Hg) as H1.
    specialize (IH r eq_refl (fun v Hin => Hs v (or_intror Hin)) Hu). lia.
Qed.

Lemma seq_max t el vs d l n : seq_view types t el vs = Some (d, l) -> (forall v, In v vs -> good_value v) ->
  (exists m, n = S m /\ upto el m) -> (levels d <= S n)%nat.
Proof.
  unfold seq_view. destruct (peel_from types [] el) as [[inf fin]|]; [|discriminate].
  destruct (elems_view types el vs) as [ds|] eqn:Hd; [|discriminate]. intros H Hs (m & -> & Hm). injection H as <- <-.
  pose proof (elems_max el vs ds m Hd Hs Hm) as G. unfold sequence_of. destruct (collect ds); cbn [levels]; lia.
Qed.

Lemma view_levels v : good_value v.
Proof.
  induction v as [n|z|b|s|vs IH|vs IH|i vs IH| |vs IH|vs IH|v IH|n s|s|e|i s|i j vs IH] using value_ind';
    intros elem h id d l k Hu Hv; destruct (view_lookup _ _ _ _ _ _ Hv) as (t & Hl);
    try rewrite Forall_forall in IH.
  - cbn [Spec.view] in Hv. rewrite Hl in Hv.
    destruct (classify t); destruct (def_of t) as [[| | | | |[]| |]|]; try discriminate; injection Hv as <- <-; cbn; lia.
  - cbn [Spec.view] in Hv. rewrite Hl in Hv.
    destruct (def_of t) as [[| | | | |[]| |]|]; try discriminate; injection Hv as <- <-; cbn; lia.
  - cbn [Spec.view] in Hv. rewrite Hl in Hv. injection Hv as <- <-; cbn; lia.
  - cbn [Spec.view] in Hv. rewrite Hl in Hv. injection Hv as <- <-; cbn [levels]; lia.
  - destruct (def_of t) as [[fs| | | | | | |]|] eqn:Hd;
      try (cbn [Spec.view] in Hv; rewrite Hl, Hd in Hv; discriminate).
    rewrite (view_struct _ _ _ _ _ _ _ Hl Hd) in Hv. pose proof (def_of_def _ _ Hd) as Hd'.
    assert (Hm : forall f, In f fs -> exists m, k = S m /\ upto (f_ty f) m).
    { intros f Hf. apply (upto_step id t); [exact Hu|exact Hl|]. unfold mentions. rewrite Hd'. exists f. auto. }
    assert (Hall : match fields_view types h fs vs with Some l => Some (DComposite l, own_info t) | None => None end
                   = Some (d, l) -> (levels d <= S k)%nat).
    { destruct (fields_view types h fs vs) as [r|] eqn:Hr; [|discriminate]. intros H; injection H as <- <-. cbn [levels].
      apply le_n_S. exact (fields_max _ _ _ _ _ Hr IH Hm). }
    destruct elem, (transparent t) as [tr|], fs as [|f [|f2 fs]], vs as [|v [|v2 vs]]; try exact (Hall Hv).
    destruct (Hm f (or_introl eq_refl)) as (m & -> & Hm'). apply (IH v (or_introl eq_refl) _ _ _ _ _ _ Hm') in Hv. lia.
  - destruct (def_of t) as [[| | | |ids| | |]|] eqn:Hd;
      try (cbn [Spec.view] in Hv; rewrite Hl, Hd in Hv; discriminate).
    rewrite (view_tuple _ _ _ _ _ _ _ Hl Hd) in Hv. pose proof (def_of_def _ _ Hd) as Hd'.
    destruct (tuple_view types h ids vs) as [r|] eqn:Hr; [|discriminate]. injection Hv as <- <-. cbn [levels].
    apply le_n_S. eapply (view_list_max _ (fun x => levels (x_data x))); [exact Hr|].
    intros i v x Hi Hin Hx. cbv beta in Hx. destruct (lookup i) as [ti|]; [|discriminate].
    destruct (view false _ i v) as [[d0 l0]|] eqn:Hv0; [|discriminate]. injection Hx as <-. cbn [x_data fst].
    destruct (upto_step id t i k Hu Hl) as (m & -> & Hm); [unfold mentions; rewrite Hd'; exact Hi|].
    exact (IH v Hin _ _ _ _ _ _ Hm Hv0).
  - destruct (def_of t) as [[|variants| | | | | |]|] eqn:Hd;
      try (cbn [Spec.view] in Hv; rewrite Hl, Hd in Hv; discriminate).
    destruct (by_index variants i) as [var|] eqn:Hi; [|cbn [Spec.view] in Hv; rewrite Hl, Hd, Hi in Hv; discriminate].
    rewrite (view_enum _ _ _ _ _ _ _ _ _ Hl Hd Hi) in Hv. pose proof (def_of_def _ _ Hd) as Hd'.
    destruct (fields_view types HNone (v_fields var) vs) as [r|] eqn:Hr; [|discriminate]. injection Hv as <- <-.
    cbn [levels vd_fields]. apply le_n_S. apply (fields_max _ _ _ _ _ Hr IH). intros f Hf.
    apply (upto_step id t); [exact Hu|exact Hl|]. unfold mentions. rewrite Hd'. exists var, f. split; [exact (proj1 (by_index_in _ _ _ Hi))|auto].
  - cbn [Spec.view] in Hv. rewrite Hl in Hv. injection Hv as <- <-; cbn; lia.
  - destruct (def_of t) as [[| |el| | | | |]|] eqn:Hd;
      try (cbn [Spec.view] in Hv; rewrite Hl, Hd in Hv; discriminate).
    rewrite (view_seq _ _ _ _ _ _ _ Hl Hd) in Hv. apply (seq_max _ _ _ _ _ _ Hv IH). apply (upto_step id t); [exact Hu|exact Hl|].
    unfold mentions. rewrite (def_of_def _ _ Hd). reflexivity.
  - destruct (def_of t) as [[| | |len el| | | |]|] eqn:Hd;
      try (cbn [Spec.view] in Hv; rewrite Hl, Hd in Hv; discriminate).
    rewrite (view_arr _ _ _ _ _ _ _ _ Hl Hd) in Hv. apply (seq_max _ _ _ _ _ _ Hv IH). apply (upto_step id t); [exact Hu|exact Hl|].
    unfold mentions. rewrite (def_of_def _ _ Hd). reflexivity.
  - destruct (def_of t) as [[| | | | | |inner|]|] eqn:Hd;
      try (cbn [Spec.view] in Hv; rewrite Hl, Hd in Hv; discriminate).
    rewrite (view_compact _ _ _ _ _ _ _ Hl Hd) in Hv.
    destruct (view _ h inner v) as [[d0 l0]|] eqn:Hv0; [|discriminate]. injection Hv as <- <-.
    destruct (upto_step id t inner k Hu Hl) as (m & -> & Hm); [unfold mentions; rewrite (def_of_def _ _ Hd); reflexivity|].
    apply (IH _ _ _ _ _ _ Hm) in Hv0. lia.
  - cbn [Spec.view] in Hv. rewrite Hl in Hv.
    destruct (def_of t) as [[| | | | | | |st o]|]; try discriminate.
    destruct (bit_order_of types o); [|discriminate]. destruct (bit_store types st); [|discriminate].
    injection Hv as <- <-. cbn [levels]. lia.
  - cbn [Spec.view] in Hv. rewrite Hl in Hv.
    destruct (classify t); try discriminate; injection Hv as <- <-; cbn [levels]; lia.
  - cbn [Spec.view] in Hv. rewrite Hl in Hv. injection Hv as <- <-; cbn; lia.
  - cbn [Spec.view] in Hv. rewrite Hl in Hv.
    destruct (def_of t) as [[|variants| | | | | |]|]; try discriminate.
    destruct (by_index variants i) as [var|]; [|discriminate].
    destruct (variant_sig types t var); [|discriminate]. injection Hv as <- <-; cbn [levels]; lia.
  - destruct (def_of t) as [[|variants| | | | | |]|] eqn:Hd;
      try (cbn [Spec.view] in Hv; rewrite Hl, Hd in Hv; discriminate).
    destruct (by_index variants i) as [var|] eqn:Hi; [|cbn [Spec.view] in Hv; rewrite Hl, Hd, Hi in Hv; discriminate].
    destruct (pallet_items types t var) as [[inner items]|] eqn:Hp;
      [|cbn [Spec.view] in Hv; rewrite Hl, Hd, Hi, Hp in Hv; discriminate].
    destruct (by_index items j) as [item|] eqn:Hj; [|cbn [Spec.view] in Hv; rewrite Hl, Hd, Hi, Hp, Hj in Hv; discriminate].
    rewrite (view_item _ _ _ _ _ _ _ _ _ _ _ _ _ Hl Hd Hi Hp Hj) in Hv.
    destruct (fields_view types HNone (v_fields item) vs) as [r|] eqn:Hr; [|discriminate]. cbv zeta in Hv.
    assert (Hd2 : levels d = S (list_max (map (fun f => levels (x_data (fd_data f))) r))).
    { destruct (classify t) as [| | | | | |[]]; injection Hv as <- <-; reflexivity. }
    rewrite Hd2. apply le_n_S. apply (fields_max _ _ _ _ _ Hr IH). intros f Hf.
    unfold pallet_items in Hp. destruct (v_fields var) as [|f0 [|f1 fr]] eqn:Hvf; try discriminate.
    destruct (lookup (f_ty f0)) as [t0|] eqn:Hl0; [|discriminate]. destruct (t_def t0) as [|vs0| | | | | |] eqn:Hd0; try discriminate.
    destruct (item_eqb _ _); [|discriminate]. injection Hp as <- <-.
    destruct (upto_step id t (f_ty f0) k Hu Hl) as (m & -> & Hm).
    { unfold mentions. rewrite (def_of_def _ _ Hd). exists var, f0. split; [exact (proj1 (by_index_in _ _ _ Hi))|]. rewrite Hvf. split; [left|]; reflexivity. }
    destruct (upto_step (f_ty f0) t0 (f_ty f) m Hm Hl0) as (m' & -> & Hm').
    { unfold mentions. rewrite Hd0. exists item, f. split; [exact (proj1 (by_index_in _ _ _ Hj))|auto]. }
    exists (S m'). split; [reflexivity|]. intros x Hx. pose proof (Hm' x Hx). lia.
Qed.
End Types.
