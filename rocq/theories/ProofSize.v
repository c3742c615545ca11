(** C44: size of parsed data. *)
From Coq Require Import Lia ZifyBool ZifyNat ZifyN Relations.
From Verif Require Import Base Compact Types Indicators Decode Spec ProofBase ProofCompact
  ProofUtf8 ProofLeaf ProofRead ProofTables ProofPeel ProofSpec ProofRel SpecWf ProofWf SpecSize.
Local Open Scope list_scope.

(** ** Size of values *)

Fixpoint vsize (v : value) : nat :=
  match v with
  | VStr l => S (List.length (utf8s l))
  | VStruct l | VTuple l | VSeq l | VArr l | VEnum _ l | VItem _ _ l => S (list_sum (map vsize l))
  | VCompact v => S (vsize v)
  | VBits n _ => S (N.to_nat n)
  | VRaw l | VSig _ l => S (List.length l)
  | _ => 1
  end.

Section Size.
Variable types : list ty.
Local Notation enc := (enc types).
Local Notation view := (view types).
Local Notation lookup := (lookup types).
Local Notation contains := (contains types).

(** *** The parsed form is not larger than the value *)

Lemma map_opt_sum {A} (g : pdata -> option A) (s : A -> nat) ds l :
  (forall d a, g d = Some a -> s a = size d) -> map_opt g ds = Some l ->
  list_sum (map s l) = list_sum (map size ds).
Proof.
  intros Hg. revert l; induction ds as [|d ds IH]; intros l; cbn [map_opt].
  - intros H; injection H as <-. reflexivity.
  - destruct (g d) as [a|] eqn:Ha; [|discriminate]. destruct (map_opt g ds) as [r|] eqn:Hr; [|discriminate].
    intros H; injection H as <-. cbn [map list_sum fold_right]. rewrite (Hg _ _ Ha).
    specialize (IH r eq_refl). unfold list_sum in IH. rewrite IH. reflexivity.
Qed.

Lemma sum_ones {A} (l : list A) : list_sum (map (fun _ => 1%nat) l) = List.length l.
Proof. induction l as [|x l IH]; [reflexivity|]. cbn. unfold list_sum in IH. rewrite IH. reflexivity. Qed.

Lemma sequence_of_size inf ds : size (sequence_of inf ds) = S (list_sum (map size ds)).
Proof.
  unfold sequence_of. destruct (collect ds) as [s|] eqn:Hc; [|reflexivity].
  unfold collect in Hc. destruct ds as [|d0 ds0]; [discriminate|].
  destruct d0; try discriminate.
  - destruct (map_opt _ _) as [l|] eqn:Hm in Hc; [|discriminate]. injection Hc as <-. cbn [size].
    rewrite <- sum_ones. f_equal. eapply (map_opt_sum _ (fun _ => 1%nat)); [|exact Hm].
    intros d a. destruct d; try discriminate. reflexivity.
  - destruct s0 as [[] l|]; try discriminate.
    destruct (map_opt _ _) as [l'|] eqn:Hm in Hc; [|discriminate]. injection Hc as <-. cbn [size].
    f_equal. eapply (map_opt_sum _ (fun b => S (List.length b))); [|exact Hm].
    intros d a. destruct d; try discriminate.
    + destruct s as [[] l0|]; try discriminate. destruct (infos_eqb _ _); [|discriminate].
      intros H; injection H as <-. reflexivity.
    + destruct l0; [|discriminate]. intros H; injection H as <-. reflexivity.
Qed.

Lemma view_list_size {A B} (g : A -> value -> option B) (s : B -> nat) ids vs l :
  view_list g ids vs = Some l ->
  (forall i v x, In v vs -> g i v = Some x -> (s x <= vsize v)%nat) ->
  (list_sum (map s l) <= list_sum (map vsize vs))%nat.
Proof.
  revert ids l; induction vs as [|v vs IH]; intros [|i ids] l; cbn [view_list]; try discriminate.
  - intros H _; injection H as <-. reflexivity.
  - destruct (g i v) as [x|] eqn:Hg; [|discriminate].
    fold (view_list g). destruct (view_list g ids vs) as [r|] eqn:Hr; [|discriminate].
    intros H Hs; injection H as <-. cbn [map list_sum fold_right].
    pose proof (Hs i v x (or_introl eq_refl) Hg) as H1.
    specialize (IH ids r Hr (fun i v x Hin => Hs i v x (or_intror Hin))). unfold list_sum in IH. lia.
Qed.

Lemma elems_view_size el vs ds : elems_view types el vs = Some ds ->
  (forall v d l, In v vs -> view true HNone el v = Some (d, l) -> (size d <= vsize v)%nat) ->
  (list_sum (map size ds) <= list_sum (map vsize vs))%nat.
Proof.
  revert ds; induction vs as [|v vs IH]; intros ds; cbn [elems_view].
  - intros H _; injection H as <-. reflexivity.
  - destruct (view true HNone el v) as [[d l]|] eqn:Hg; [|discriminate].
    fold (elems_view types el). destruct (elems_view types el vs) as [r|] eqn:Hr; [|discriminate].
    intros H Hs; injection H as <-. cbn [map list_sum fold_right].
    pose proof (Hs v d l (or_introl eq_refl) Hg) as H1.
    specialize (IH r eq_refl (fun v d l Hin => Hs v d l (or_intror Hin))). unfold list_sum in IH. lia.
Qed.

Lemma fields_view_size h fs vs l : fields_view types h fs vs = Some l ->
  (forall v, In v vs -> forall elem h id d l, view elem h id v = Some (d, l) -> (size d <= vsize v)%nat) ->
  (list_sum (map (fun f => size (x_data (fd_data f))) l) <= list_sum (map vsize vs))%nat.
Proof.
  intros H Hs. eapply (view_list_size _ (fun f => size (x_data (fd_data f)))); [exact H|].
  intros f v x Hin Hx. cbv beta in Hx.
  destruct (view false _ (f_ty f) v) as [[d l0]|] eqn:Hv; [|discriminate]. injection Hx as <-.
  cbn [field_form fd_data x_data fst]. eapply Hs; [exact Hin|exact Hv].
Qed.

Lemma seq_view_size t el vs d l : seq_view types t el vs = Some (d, l) ->
  (forall v, In v vs -> forall elem h id d l, view elem h id v = Some (d, l) -> (size d <= vsize v)%nat) ->
  (size d <= S (list_sum (map vsize vs)))%nat.
Proof.
  unfold seq_view. destruct (peel_from types [] el) as [[inf fin]|]; [|discriminate].
  destruct (elems_view types el vs) as [ds|] eqn:Hd; [|discriminate]. intros H Hs. injection H as <- <-.
  rewrite sequence_of_size. apply le_n_S. eapply elems_view_size; [exact Hd|].
  intros v d l0 Hin Hv. eapply Hs; eauto.
Qed.

Lemma view_size v : forall elem h id d l, view elem h id v = Some (d, l) -> (size d <= vsize v)%nat.
Proof.
  induction v as [n|z|b|s|vs IH|vs IH|i vs IH| |vs IH|vs IH|v IH|n s|s|e|i s|i j vs IH] using value_ind';
    intros elem h id d l Hv; destruct (view_lookup _ _ _ _ _ _ Hv) as (t & Hl);
    try rewrite Forall_forall in IH.
  - cbn [Spec.view] in Hv. rewrite Hl in Hv.
    destruct (classify t); destruct (def_of t) as [[| | | | |[]| |]|]; try discriminate; injection Hv as <- <-; cbn; lia.
  - cbn [Spec.view] in Hv. rewrite Hl in Hv.
    destruct (def_of t) as [[| | | | |[]| |]|]; try discriminate; injection Hv as <- <-; cbn; lia.
  - cbn [Spec.view] in Hv. rewrite Hl in Hv. injection Hv as <- <-; cbn; lia.
  - cbn [Spec.view] in Hv. rewrite Hl in Hv. injection Hv as <- <-; cbn [size vsize]; lia.
  - destruct (def_of t) as [[fs| | | | | | |]|] eqn:Hd;
      try (cbn [Spec.view] in Hv; rewrite Hl, Hd in Hv; discriminate).
    rewrite (view_struct _ _ _ _ _ _ _ Hl Hd) in Hv. cbn [vsize].
    assert (Hall : match fields_view types h fs vs with Some l => Some (DComposite l, own_info t) | None => None end
                   = Some (d, l) -> (size d <= S (list_sum (map vsize vs)))%nat).
    { destruct (fields_view types h fs vs) as [r|] eqn:Hr; [|discriminate]. intros H; injection H as <- <-. cbn [size].
      apply le_n_S. eapply fields_view_size; eauto. }
    destruct elem, (transparent t) as [tr|], fs as [|f [|f2 fs]], vs as [|v [|v2 vs]]; try exact (Hall Hv).
    cbn [map list_sum fold_right]. apply IH in Hv; [|left; reflexivity]. lia.
  - destruct (def_of t) as [[| | | |ids| | |]|] eqn:Hd;
      try (cbn [Spec.view] in Hv; rewrite Hl, Hd in Hv; discriminate).
    rewrite (view_tuple _ _ _ _ _ _ _ Hl Hd) in Hv.
    destruct (tuple_view types h ids vs) as [r|] eqn:Hr; [|discriminate]. injection Hv as <- <-. cbn [size vsize].
    apply le_n_S. eapply (view_list_size _ (fun x => size (x_data x))); [exact Hr|].
    intros i v x Hin Hx. cbv beta in Hx. destruct (lookup i) as [ti|]; [|discriminate].
    destruct (view false _ i v) as [[d0 l0]|] eqn:Hv0; [|discriminate]. injection Hx as <-. cbn [x_data fst].
    eapply IH; eauto.
  - destruct (def_of t) as [[|variants| | | | | |]|] eqn:Hd;
      try (cbn [Spec.view] in Hv; rewrite Hl, Hd in Hv; discriminate).
    destruct (by_index variants i) as [var|] eqn:Hi; [|cbn [Spec.view] in Hv; rewrite Hl, Hd, Hi in Hv; discriminate].
    rewrite (view_enum _ _ _ _ _ _ _ _ _ Hl Hd Hi) in Hv.
    destruct (fields_view types HNone (v_fields var) vs) as [r|] eqn:Hr; [|discriminate]. injection Hv as <- <-.
    cbn [size vsize vd_fields]. apply le_n_S. eapply fields_view_size; eauto.
  - cbn [Spec.view] in Hv. rewrite Hl in Hv. injection Hv as <- <-; cbn; lia.
  - destruct (def_of t) as [[| |el| | | | |]|] eqn:Hd;
      try (cbn [Spec.view] in Hv; rewrite Hl, Hd in Hv; discriminate).
    rewrite (view_seq _ _ _ _ _ _ _ Hl Hd) in Hv. eapply seq_view_size; eauto.
  - destruct (def_of t) as [[| | |len el| | | |]|] eqn:Hd;
      try (cbn [Spec.view] in Hv; rewrite Hl, Hd in Hv; discriminate).
    rewrite (view_arr _ _ _ _ _ _ _ _ Hl Hd) in Hv. eapply seq_view_size; eauto.
  - destruct (def_of t) as [[| | | | | |inner|]|] eqn:Hd;
      try (cbn [Spec.view] in Hv; rewrite Hl, Hd in Hv; discriminate).
    rewrite (view_compact _ _ _ _ _ _ _ Hl Hd) in Hv.
    destruct (view _ h inner v) as [[d0 l0]|] eqn:Hv0; [|discriminate]. injection Hv as <- <-.
    apply IH in Hv0. cbn [vsize]. lia.
  - cbn [Spec.view] in Hv. rewrite Hl in Hv.
    destruct (def_of t) as [[| | | | | | |st o]|]; try discriminate.
    destruct (bit_order_of types o); [|discriminate]. destruct (bit_store types st); [|discriminate].
    injection Hv as <- <-. cbn [size vsize]. unfold the_bits. rewrite map_length, seq_length. lia.
  - cbn [Spec.view] in Hv. rewrite Hl in Hv.
    destruct (classify t); try discriminate; injection Hv as <- <-; cbn [size vsize]; lia.
  - cbn [Spec.view] in Hv. rewrite Hl in Hv. injection Hv as <- <-; cbn; lia.
  - cbn [Spec.view] in Hv. rewrite Hl in Hv.
    destruct (def_of t) as [[|variants| | | | | |]|]; try discriminate.
    destruct (by_index variants i) as [var|]; [|discriminate].
    destruct (variant_sig types t var); [|discriminate]. injection Hv as <- <-; cbn [size vsize]; lia.
  - destruct (def_of t) as [[|variants| | | | | |]|] eqn:Hd;
      try (cbn [Spec.view] in Hv; rewrite Hl, Hd in Hv; discriminate).
    destruct (by_index variants i) as [var|] eqn:Hi; [|cbn [Spec.view] in Hv; rewrite Hl, Hd, Hi in Hv; discriminate].
    destruct (pallet_items types t var) as [[inner items]|] eqn:Hp;
      [|cbn [Spec.view] in Hv; rewrite Hl, Hd, Hi, Hp in Hv; discriminate].
    destruct (by_index items j) as [item|] eqn:Hj; [|cbn [Spec.view] in Hv; rewrite Hl, Hd, Hi, Hp, Hj in Hv; discriminate].
    rewrite (view_item _ _ _ _ _ _ _ _ _ _ _ _ _ Hl Hd Hi Hp Hj) in Hv.
    destruct (fields_view types HNone (v_fields item) vs) as [r|] eqn:Hr; [|discriminate]. cbv zeta in Hv.
    cbn [vsize].
    assert (Hd2 : size d = S (list_sum (map (fun f => size (x_data (fd_data f))) r))).
    { destruct (classify t) as [| | | | | |[]]; injection Hv as <- <-; reflexivity. }
    rewrite Hd2. apply le_n_S. eapply fields_view_size; eauto.
Qed.

End Size.
