(** C12: labels never change what is decoded. *)
From Coq Require Import Lia.
From Verif Require Import Base Compact Types Indicators Decode Spec Api SpecLabels ProofBase ProofLeaf
  ProofPeel ProofSpec ProofCor.
Local Open Scope list_scope.

Section Labels.
Variable types : list ty.
Local Notation view := (view types).
Local Notation lookup := (lookup types).

Definition un1 (x : pdata * list info) : pdata * list info := (unlabel (fst x), snd x).
Definition un_f (f : fdata pdata) : fdata pdata :=
  match f with FData n t docs (Ext d i) => FData n t docs (Ext (unlabel d) i) end.
Definition un_x (x : ext pdata) : ext pdata := match x with Ext d i => Ext (unlabel d) i end.

Lemma view_list_un {A B} (u : B -> B) (g1 g2 : A -> value -> option B) ids vs :
  (forall i v, In v vs -> option_map u (g1 i v) = option_map u (g2 i v)) ->
  option_map (map u) (view_list g1 ids vs) = option_map (map u) (view_list g2 ids vs).
Proof.
  revert ids; induction vs as [|v vs IH]; intros [|i ids] H; try reflexivity.
  pose proof (H i v (or_introl eq_refl)) as Hv.
  specialize (IH ids (fun i v Hin => H i v (or_intror Hin))).
  cbn [view_list]. fold (view_list g1) (view_list g2).
  destruct (g1 i v) as [a|], (g2 i v) as [b|]; try discriminate; [|reflexivity].
  cbn [option_map] in Hv. injection Hv as Hv.
  destruct (view_list g1 ids vs) as [l1|], (view_list g2 ids vs) as [l2|]; try discriminate; [|reflexivity].
  cbn [option_map map] in *. injection IH as IH. rewrite Hv, IH. reflexivity.
Qed.

Lemma fields_view_un h1 h2 fs vs :
  (forall v, In v vs -> forall elem h1 h2 id, option_map un1 (view elem h1 id v) = option_map un1 (view elem h2 id v)) ->
  option_map (map un_f) (fields_view types h1 fs vs) = option_map (map un_f) (fields_view types h2 fs vs).
Proof.
  intros H. unfold fields_view. apply view_list_un. intros f v Hin.
  pose proof (H v Hin false (or_label (pass_label h1 (List.length fs)) (field_label f))
    (or_label (pass_label h2 (List.length fs)) (field_label f)) (f_ty f)) as Hv.
  unfold un1 in Hv. destruct (view false _ (f_ty f) v) as [[d l]|], (view false _ (f_ty f) v) as [[d' l']|];
    try discriminate; [|reflexivity].
  cbn [option_map fst snd] in *. unfold field_form, un_f. cbn [fst snd]. congruence.
Qed.

Lemma view_unlabel v : forall elem h1 h2 id,
  option_map un1 (view elem h1 id v) = option_map un1 (view elem h2 id v).
Proof.
  induction v as [n|z|b|l|vs IH|vs IH|i vs IH| |vs IH|vs IH|v IH|n l|l|e|i l|i j vs IH] using value_ind';
    intros elem h1 h2 id; destruct (lookup id) as [t|] eqn:Hl;
    try (cbn [Spec.view]; rewrite Hl; reflexivity);
    try rewrite Forall_forall in IH.
  - cbn [Spec.view]. rewrite Hl. destruct (classify t), (def_of t) as [[| | | | |[]| |]|]; reflexivity.
  - destruct (def_of t) as [d|] eqn:Hd; [|cbn [Spec.view]; rewrite Hl, Hd; reflexivity].
    destruct d as [fs| | | | | | |]; try (cbn [Spec.view]; rewrite Hl, Hd; reflexivity).
    rewrite !(view_struct _ _ _ _ _ _ _ Hl Hd).
    assert (Hall : option_map un1 (match fields_view types h1 fs vs with
               | Some l => Some (DComposite l, own_info t) | None => None end) =
             option_map un1 (match fields_view types h2 fs vs with
               | Some l => Some (DComposite l, own_info t) | None => None end)).
    { pose proof (fields_view_un h1 h2 fs vs IH) as H.
      destruct (fields_view types h1 fs vs), (fields_view types h2 fs vs); try discriminate; [|reflexivity].
      cbn [option_map] in *. injection H as H. unfold un1. cbn [fst snd unlabel]. do 3 f_equal. exact H. }
    destruct elem, (transparent t) as [tr|], fs as [|f [|f2 fs]], vs as [|v [|v2 vs]]; try exact Hall.
    apply IH. left. reflexivity.
  - destruct (def_of t) as [d|] eqn:Hd; [|cbn [Spec.view]; rewrite Hl, Hd; reflexivity].
    destruct d as [| | | |ids| | |]; try (cbn [Spec.view]; rewrite Hl, Hd; reflexivity).
    rewrite !(view_tuple _ _ _ _ _ _ _ Hl Hd).
    assert (H : option_map (map un_x) (tuple_view types h1 ids vs) = option_map (map un_x) (tuple_view types h2 ids vs)).
    { unfold tuple_view. apply view_list_un. intros i v Hin. destruct (lookup i) as [ti|]; [|reflexivity].
      pose proof (IH v Hin false (or_label (pass_label h1 (List.length ids)) (path_label ti))
        (or_label (pass_label h2 (List.length ids)) (path_label ti)) i) as Hv.
      unfold un1 in Hv. destruct (view false _ i v) as [[d l]|], (view false _ i v) as [[d' l']|];
        try discriminate; [|reflexivity].
      cbn [option_map fst snd] in *. unfold un_x. cbn [fst snd]. congruence. }
    destruct (tuple_view types h1 ids vs), (tuple_view types h2 ids vs); try discriminate; [|reflexivity].
    cbn [option_map] in *. injection H as H. unfold un1. cbn [fst snd unlabel]. do 3 f_equal. exact H.
  - destruct (def_of t) as [d|] eqn:Hd; [|cbn [Spec.view]; rewrite Hl, Hd; reflexivity].
    destruct d as [| | | | | |inner|]; try (cbn [Spec.view]; rewrite Hl, Hd; reflexivity).
    rewrite !(view_compact _ _ _ _ _ _ _ Hl Hd).
    pose proof (IH (elem && is_some (transparent t))%bool h1 h2 inner) as H.
    destruct (view _ h1 inner v) as [[d1 l1]|], (view _ h2 inner v) as [[d2 l2]|]; try discriminate; [|reflexivity].
    cbn [option_map] in *. unfold un1 in *. cbn [fst snd] in *. congruence.
  - cbn [Spec.view]. rewrite Hl. destruct (classify t); reflexivity.
Qed.

Theorem hints_only_label h1 h2 data id pos x q : is_bytes data ->
  decode_hinted h1 types data id pos = (Ok x, q) ->
  exists x', decode_hinted h2 types data id pos = (Ok x', q) /\
    unlabel (x_data x') = unlabel (x_data x) /\ x_info x' = x_info x.
Proof.
  intros Hb H. apply hinted_sound in H; [|exact Hb]. destruct H as (v & bs & He & Hv & Hn & Hh & ->).
  pose proof (view_unlabel v false h1 h2 id) as Hu. rewrite Hv in Hu.
  destruct (view false h2 id v) as [[d l]|] eqn:Hv2; [|discriminate].
  cbn [option_map] in Hu. unfold un1 in Hu. cbn [fst snd] in Hu.
  exists (Ext d l). split; [|cbn; split; congruence].
  apply hinted_complete; [exact Hb|]. exists v, bs. cbn. auto.
Qed.

Theorem hints_same_failures h1 h2 data id pos y q : is_bytes data ->
  decode_hinted h1 types data id pos = (Err y, q) ->
  exists y' q', decode_hinted h2 types data id pos = (Err y', q').
Proof.
  intros Hb H. apply hinted_not_ok. intros x q' H2.
  destruct (hints_only_label h2 h1 data id pos x q' Hb H2) as (x' & Hx & _). congruence.
Qed.
End Labels.
