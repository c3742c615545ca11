(** C34: the labels of the runtime version are the names of its fields. *)
From Verif Require Import Base Compact Types Indicators Decode Sign Meta Spec SpecMeta ProofBase ProofLeaf ProofTables
  ProofPeel ProofSpec ProofCor ProofMeta Api.
Local Open Scope string_scope.
Local Open Scope list_scope.

Section Named.
Variable types : list ty.
Local Notation view := (view types).
Local Notation lookup := (lookup types).

(** The label of an integer or a text is the one asked for; a struct shows its fields. *)
Definition labelled (h : hint) (d : pdata) : Prop :=
  match d with
  | DUInt _ _ s => s = uint_labels h
  | DText _ s => s = str_label h
  | DComposite l => exists fs vs, fields_view types h fs vs = Some l
  | _ => True
  end.

Lemma view_labelled v : forall h id d i, view false h id v = Some (d, i) -> labelled h d.
Proof.
  induction v as [n|z|b|l|vs IH|vs IH|j vs IH| |vs IH|vs IH|v IH|n l|l|e|j l|j k vs IH] using value_ind';
    intros h id d i H; destruct (lookup id) as [t|] eqn:Hl;
    try (cbn [Spec.view] in H; rewrite Hl in H; discriminate H).
  - cbn [Spec.view] in H. rewrite Hl in H.
    destruct (classify t), (def_of t) as [[| | | | |[]| |]|]; try discriminate H; injection H as <- _; try exact I; reflexivity.
  - cbn [Spec.view] in H. rewrite Hl in H. destruct (def_of t) as [[| | | | |[]| |]|]; try discriminate H; injection H as <- _; exact I.
  - cbn [Spec.view] in H. rewrite Hl in H. injection H as <- _; exact I.
  - cbn [Spec.view] in H. rewrite Hl in H. injection H as <- _; reflexivity.
  - destruct (def_of t) as [[fs| | | | | | |]|] eqn:Hd; try (cbn [Spec.view] in H; rewrite Hl, Hd in H; discriminate H).
    rewrite (view_struct _ _ _ _ _ _ _ Hl Hd) in H.
    destruct (fields_view types h fs vs) as [l|] eqn:Hf; [|discriminate H]. injection H as <- _. exists fs, vs. exact Hf.
  - destruct (def_of t) as [[| | | |ids| | |]|] eqn:Hd; try (cbn [Spec.view] in H; rewrite Hl, Hd in H; discriminate H).
    rewrite (view_tuple _ _ _ _ _ _ _ Hl Hd) in H. destruct (tuple_view types h ids vs); [|discriminate H]. injection H as <- _. exact I.
  - cbn [Spec.view] in H. rewrite Hl in H. destruct (def_of t) as [[| | | | | | |]|]; try discriminate H.
    destruct (by_index variants j) as [var|]; [|discriminate H].
    match type of H with match ?x with _ => _ end = _ => destruct x; [|discriminate H] end. injection H as <- _. exact I.
  - cbn [Spec.view] in H. rewrite Hl in H. injection H as <- _; exact I.
  - destruct (def_of t) as [[| |el| | | | |]|] eqn:Hd; try (cbn [Spec.view] in H; rewrite Hl, Hd in H; discriminate H).
    rewrite (view_seq _ _ _ _ _ _ _ Hl Hd) in H. unfold seq_view in H.
    destruct (peel_from types [] el) as [[inf fin]|]; [|discriminate H]. destruct (elems_view types el vs) as [ds|]; [|discriminate H].
    injection H as <- _. unfold sequence_of. destruct (collect ds); exact I.
  - destruct (def_of t) as [[| | |n el| | | |]|] eqn:Hd; try (cbn [Spec.view] in H; rewrite Hl, Hd in H; discriminate H).
    rewrite (view_arr _ _ _ _ _ _ _ _ Hl Hd) in H. unfold seq_view in H.
    destruct (peel_from types [] el) as [[inf fin]|]; [|discriminate H]. destruct (elems_view types el vs) as [ds|]; [|discriminate H].
    injection H as <- _. unfold sequence_of. destruct (collect ds); exact I.
  - destruct (def_of t) as [[| | | | | |inner|]|] eqn:Hd; try (cbn [Spec.view] in H; rewrite Hl, Hd in H; discriminate H).
    rewrite (view_compact _ _ _ _ _ _ _ Hl Hd) in H. cbn [andb] in H.
    destruct (view false h inner v) as [[d' l]|] eqn:Hv; [|discriminate H]. injection H as <- _. exact (IH _ _ _ _ Hv).
  - cbn [Spec.view] in H. rewrite Hl in H. destruct (def_of t) as [[| | | | | | |store order]|]; try discriminate H.
    destruct (bit_order_of types order), (bit_store types store); try discriminate H. injection H as <- _. exact I.
  - cbn [Spec.view] in H. rewrite Hl in H. destruct (classify t); try discriminate H; injection H as <- _; exact I.
  - cbn [Spec.view] in H. rewrite Hl in H. injection H as <- _; exact I.
  - cbn [Spec.view] in H. rewrite Hl in H. destruct (def_of t) as [[| | | | | | |]|]; try discriminate H.
    destruct (by_index variants j) as [var|]; [|discriminate H]. destruct (variant_sig types t var); [|discriminate H]. injection H as <- _. exact I.
  - cbn [Spec.view] in H. rewrite Hl in H. destruct (def_of t) as [[| | | | | | |]|]; try discriminate H.
    destruct (by_index variants j) as [var|]; [|discriminate H]. destruct (pallet_items types t var) as [[inner items]|]; [|discriminate H].
    destruct (by_index items k) as [item|]; [|discriminate H].
    match type of H with match ?x with _ => _ end = _ => destruct x; [|discriminate H] end. injection H as <- _.
    destruct (classify t) as [| | | | | |item0]; try destruct item0; exact I.
Qed.

Lemma field_named f :
  (uint_labels (field_label f) = SuSpecVersion <-> f_name f = Some "spec_version") /\
  (str_label (field_label f) = SsSpecName <-> f_name f = Some "spec_name").
Proof.
  assert (Ht : forall n, uint_labels match n with Some n => if existsb (String.eqb n) balance_type_names then HFieldBalance else HNone | None => HNone end <> SuSpecVersion /\
     str_label match n with Some n => if existsb (String.eqb n) balance_type_names then HFieldBalance else HNone | None => HNone end <> SsSpecName).
  { intros [n|]; [destruct (existsb _ _)|]; split; discriminate. }
  unfold field_label. destruct (f_name f) as [n|]; [|destruct (Ht (f_type_name f)); split; split; intros; try discriminate; contradiction].
  unfold field_name_labels. cbn [find fst].
  destruct (String.eqb_spec "nonce" n) as [<-|N1]; [split; split; discriminate|].
  destruct (String.eqb_spec "spec_version" n) as [<-|N2]; [split; split; (reflexivity || discriminate)|].
  destruct (String.eqb_spec "spec_name" n) as [<-|N3]; [split; split; (reflexivity || discriminate)|].
  destruct (String.eqb_spec "tx_version" n) as [<-|N4]; [split; split; discriminate|].
  destruct (String.eqb_spec "transaction_version" n) as [<-|N5]; [split; split; discriminate|].
  destruct (Ht (f_type_name f)). split; split; intros; try contradiction; congruence.
Qed.

Lemma fields_named fs : forall vs k l,
  view_list (fun f v => option_map (field_form f) (view false (or_label (pass_label HNone k) (field_label f)) (f_ty f) v)) fs vs = Some l ->
  Forall (fun f => version_of f = named_version f /\ name_of f = named_name f) l.
Proof.
  induction fs as [|f fs IH]; intros [|v vs] k l H; cbn [view_list] in H; try discriminate H.
  { injection H as <-. constructor. }
  fold (@view_list field (fdata pdata)) in H.
  assert (Hp : or_label (pass_label HNone k) (field_label f) = field_label f) by (unfold pass_label; destruct (Nat.leb 2 k); reflexivity).
  rewrite Hp in H. destruct (view false (field_label f) (f_ty f) v) as [[d i]|] eqn:Hv; [|discriminate H]. cbn [option_map] in H.
  match type of H with match ?x with _ => _ end = _ => destruct x as [l'|] eqn:Hl; [|discriminate H] end. injection H as <-.
  constructor; [|exact (IH vs k l' Hl)]. pose proof (view_labelled _ _ _ _ _ Hv) as Hd. destruct (field_named f) as [[U1 U2] [S1 S2]].
  unfold version_of, name_of, named_version, named_name, field_form. cbn [fd_data x_data fd_name fst].
  destruct d; try (split; destruct (f_name f) as [n|]; [destruct (String.eqb_spec n "spec_version")| |destruct (String.eqb_spec n "spec_name")|]; reflexivity).
  - cbn [labelled] in Hd. subst specialty. split.
    + destruct (f_name f) as [n|]; [|destruct (uint_labels (field_label f)); (reflexivity || discriminate (U1 eq_refl))].
      destruct (String.eqb_spec n "spec_version") as [->|Hn]; [rewrite (U2 eq_refl); reflexivity|].
      destruct (uint_labels (field_label f)); try reflexivity. exfalso. specialize (U1 eq_refl). congruence.
    + destruct (f_name f) as [n|]; [destruct (String.eqb n "spec_name")|]; reflexivity.
  - cbn [labelled] in Hd. subst specialty. split.
    + destruct (f_name f) as [n|]; [destruct (String.eqb n "spec_version")|]; reflexivity.
    + destruct (f_name f) as [n|]; [|destruct (str_label (field_label f)); (reflexivity || discriminate (S1 eq_refl))].
      destruct (String.eqb_spec n "spec_name") as [->|Hn]; [rewrite (S2 eq_refl); reflexivity|].
      destruct (str_label (field_label f)); try reflexivity. exfalso. specialize (S1 eq_refl). congruence.
Qed.

Theorem decoded_named value id x l : is_bytes value -> decode_all types value id = Ok x -> x_data x = DComposite l ->
  spec_versions l = flat_map named_version l /\ spec_names l = flat_map named_name l.
Proof.
  intros Hb Hd Hx. pose proof (whole_blob types value id) as Hw. rewrite Hd in Hw.
  destruct (decode_at types value id 0) as [[x'|y'| |] q] eqn:Ha; try (exfalso; congruence); try contradiction.
  destruct (Nat.eqb q (List.length value)); [|discriminate Hw]. injection Hw as <-.
  rewrite decode_at_hinted in Ha. apply hinted_sound in Ha; [|exact Hb]. destruct Ha as (v & bs & _ & Hv & _).
  rewrite Hx in Hv. apply view_labelled in Hv. destruct Hv as (fs & vs & Hv). apply fields_named in Hv.
  unfold spec_versions, spec_names. clear -Hv. induction Hv as [|f l [H1 H2] _ [IH1 IH2]]; [split; reflexivity|].
  cbn [flat_map]. rewrite H1, H2, IH1, IH2. split; reflexivity.
Qed.
End Named.
