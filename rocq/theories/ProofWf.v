(** Consequences of acyclicity and well-formedness; encodings are bytes. *)
From Coq Require Import Lia ZifyBool ZifyNat ZifyN Relations.
From Verif Require Import Base Compact Types Indicators Decode Spec ProofBase ProofCompact
  ProofUtf8 ProofLeaf ProofRead ProofTables ProofPeel ProofSpec ProofRel SpecWf.
Local Open Scope list_scope.

Section Wf.
Variable types : list ty.
Local Notation enc := (enc types).
Local Notation view := (view types).
Local Notation nocyc := (nocyc types).
Local Notation lookup := (lookup types).
Local Notation contains := (contains types).

Hypothesis Hac : acyclic types.

Lemma ct_step_r a b c : clos_trans N contains a b -> contains b c -> clos_trans N contains a c.
Proof. intros H1 H2. eapply t_trans; [exact H1|apply t_step; exact H2]. Qed.

(** Ancestors. *)
Definition above (cyc : list N) (id : N) : Prop := forall a, In a cyc -> a = id \/ clos_trans N contains a id.
Definition strictly (cyc : list N) (id : N) : Prop := forall a, In a cyc -> clos_trans N contains a id.

Lemma above_step cyc id j : above cyc id -> contains id j -> strictly cyc j.
Proof.
  intros Ha Hc a Hin. destruct (Ha a Hin) as [-> |H]; [apply t_step; exact Hc|eapply ct_step_r; eauto].
Qed.

Lemma strictly_fresh cyc j : strictly cyc j -> fresh cyc j = true.
Proof. intros H. apply fresh_spec. intros Hin. exact (Hac _ (H _ Hin)). Qed.

Lemma strictly_above cyc j : strictly cyc j -> above (cyc ++ [j]) j.
Proof. intros H a Hin. apply in_app_or in Hin. destruct Hin as [Hin|[->|[]]]; [right; auto|left; auto]. Qed.

Lemma transparent_contains id t j c : lookup id = Some t -> transparent t = Some (j, c) -> contains id j.
Proof.
  intros Hl Ht. exists t. split; [exact Hl|]. destruct c.
  - destruct (transparent_true _ _ Ht) as (_ & ->). reflexivity.
  - destruct (transparent_false _ _ Ht) as (f & _ & -> & ->). exists f. cbn; auto.
Qed.

Lemma chain_reseen seen cpt h id l seen' cpt' h' final :
  chain types seen cpt h id l seen' cpt' h' final -> forall seen2, strictly seen2 id ->
  exists seen2', chain types seen2 cpt h id l seen2' cpt' h' final.
Proof.
  induction 1 as [seen cpt h id t Hf Hl Ht
                 |seen cpt h id t f l seen' cpt' h' final Hf Hl Ht Hd Hc IH
                 |seen h id t inner l seen' cpt' h' final Hf Hl Ht Hd Hc IH];
    intros seen2 Hs; pose proof (strictly_fresh _ _ Hs) as Hf2.
  - eexists. apply chain_end; auto.
  - destruct (IH (seen2 ++ [id])) as (s & Hs').
    + eapply above_step; [apply strictly_above; exact Hs|]. eapply transparent_contains; eauto.
    + eexists. eapply chain_field; eauto.
  - destruct (IH (seen2 ++ [id])) as (s & Hs').
    + eapply above_step; [apply strictly_above; exact Hs|]. eapply transparent_contains; eauto.
    + eexists. eapply chain_compact; eauto.
Qed.

Lemma peel_reseen seen seen2 id x : peel_from types seen id = Some x -> strictly seen2 id ->
  peel_from types seen2 id = Some x.
Proof.
  destruct x as [l final]. unfold peel_from at 1. intros H Hs.
  destruct (peel_chain _ _ _ _ HNone _ _ _ H) as (s & c & h & Hc).
  destruct (chain_reseen _ _ _ _ _ _ _ _ _ Hc seen2 Hs) as (s0 & Hc0).
  eapply chain_peel_from, Hc0.
Qed.

Lemma strictly_nil id : strictly [] id.
Proof. intros a []. Qed.

Lemma above_self id : above [id] id.
Proof. intros a [-> |[]]. auto. Qed.

(** ** Acyclic registries: values that have a parsed form pass the cycle check *)

Lemma all2_view {A B} (f : A -> value -> bool) (g : A -> value -> option B) ids vs l :
  view_list g ids vs = Some l ->
  (forall i v x, In i ids -> In v vs -> g i v = Some x -> f i v = true) -> all2 f ids vs = true.
Proof.
  revert ids l; induction vs as [|v vs IH]; intros [|i ids] l; cbn [view_list all2]; try discriminate; auto.
  destruct (g i v) as [x|] eqn:Hg; [|discriminate].
  destruct (view_list g ids vs) as [xs|] eqn:Hx; [|discriminate]. intros _ H.
  change (f i v && all2 f ids vs = true). apply andb_true_iff. split.
  - eapply H; [left; reflexivity|left; reflexivity|exact Hg].
  - eapply IH; [exact Hx|]. intros i0 v0 x0 Hi Hv. apply H; right; assumption.
Qed.

Lemma allv_view el f vs ds : elems_view types el vs = Some ds ->
  (forall v x, In v vs -> view true HNone el v = Some x -> f v = true) -> allv f vs = true.
Proof.
  revert ds; induction vs as [|v vs IH]; intros ds; cbn [elems_view allv]; auto.
  destruct (view true HNone el v) as [[d l]|] eqn:Hv; [|discriminate].
  change ((fix go (vs : list value) : option (list pdata) :=
     match vs with
     | [] => Some []
     | v :: vs' => match view true HNone el v, go vs' with
                   | Some (d, _), Some ds => Some (d :: ds) | _, _ => None end
     end) vs) with (elems_view types el vs).
  destruct (elems_view types el vs) as [ds1|] eqn:Hds; [|discriminate]. intros _ H.
  change (f v && allv f vs = true). apply andb_true_iff. split.
  - eapply H; [left; reflexivity|exact Hv].
  - eapply IH; [reflexivity|]. intros v0 x0 Hin. apply H. right. exact Hin.
Qed.

Lemma seq_view_inv t el vs x : seq_view types t el vs = Some x ->
  exists inf final ds, peel_from types [] el = Some (inf, final) /\ elems_view types el vs = Some ds.
Proof.
  unfold seq_view. destruct (peel_from types [] el) as [[inf final]|]; [|discriminate].
  destruct (elems_view types el vs); [|discriminate]. eauto.
Qed.

Lemma view_lookup elem h id v x : view elem h id v = Some x -> exists t, lookup id = Some t.
Proof. destruct v; cbn [Spec.view]; destruct (lookup id); eauto; discriminate. Qed.

Lemma acyclic_nocyc v : forall elem h id x cyc, view elem h id v = Some x -> above cyc id ->
  nocyc cyc id v = true.
Proof.
  induction v as [n|z|b|l|vs IH|vs IH|i vs IH| |vs IH|vs IH|v IH|n l|l|e|i l|i j vs IH] using value_ind';
    intros elem h id x cyc Hv Ha;
    destruct (view_lookup _ _ _ _ _ Hv) as (t & Hl);
    try (cbn [ProofPeel.nocyc]; rewrite Hl; reflexivity).
  - (* struct *)
    assert (Hdef : exists fs, def_of t = Some (TComposite fs)).
    { cbn [Spec.view] in Hv. rewrite Hl in Hv. destruct (def_of t) as [[]|]; try discriminate; eauto. }
    destruct Hdef as (fs & Hd). rewrite (view_struct _ _ _ _ _ _ _ Hl Hd) in Hv.
    cbn [ProofPeel.nocyc]. rewrite Hl, Hd.
    assert (Hch : forall f v elem h x, In f fs -> In v vs -> view elem h (f_ty f) v = Some x ->
       fresh cyc (f_ty f) && nocyc (cyc ++ [f_ty f]) (f_ty f) v = true).
    { intros f v e1 h1 x1 Hf Hin Hv1. apply andb_true_iff.
      assert (Hs : strictly cyc (f_ty f)).
      { eapply above_step; [exact Ha|]. exists t. split; [exact Hl|]. rewrite Hd. eauto. }
      split; [apply strictly_fresh, Hs|]. rewrite Forall_forall in IH.
      eapply IH; [exact Hin|exact Hv1|apply strictly_above, Hs]. }
    assert (Hfv : fields_view types h fs vs <> None -> all2 (fun f v =>
       fresh cyc (f_ty f) && nocyc (cyc ++ [f_ty f]) (f_ty f) v) fs vs = true).
    { destruct (fields_view types h fs vs) as [l|] eqn:Hl1; [intros _|congruence].
      eapply all2_view; [exact Hl1|]. intros f v x1 Hf Hin Hx1.
      cbv beta in Hx1.
      match type of Hx1 with option_map _ ?q = _ => destruct q eqn:Hv1; [|discriminate Hx1] end.
      eapply Hch; eauto. }
    destruct elem, (transparent t) as [tr|], fs as [|f [|f2 fs]], vs as [|v [|v2 vs]]; cbn [andb] in Hv;
      try (apply Hfv; intros Hnone; rewrite Hnone in Hv; discriminate).
    cbn [all2]. apply andb_true_iff. split; [|reflexivity].
    eapply Hch; [left; reflexivity|left; reflexivity|exact Hv].
  - (* tuple *)
    assert (Hdef : exists ids, def_of t = Some (TTuple ids)).
    { cbn [Spec.view] in Hv. rewrite Hl in Hv. destruct (def_of t) as [[]|]; try discriminate; eauto. }
    destruct Hdef as (ids & Hd). rewrite (view_tuple _ _ _ _ _ _ _ Hl Hd) in Hv.
    cbn [ProofPeel.nocyc]. rewrite Hl, Hd.
    destruct (tuple_view types h ids vs) as [l|] eqn:Hl1; [|discriminate].
    eapply all2_view; [exact Hl1|]. intros i v x1 Hi Hin Hx1.
    cbv beta in Hx1. destruct (lookup i) as [ti|]; [|discriminate Hx1].
    match type of Hx1 with option_map _ ?q = _ => destruct q eqn:Hv1; [|discriminate Hx1] end.
    assert (Hs : strictly cyc i).
    { eapply above_step; [exact Ha|]. exists t. split; [exact Hl|]. rewrite Hd. exact Hi. }
    apply andb_true_iff. split; [apply strictly_fresh, Hs|]. rewrite Forall_forall in IH.
    eapply IH; [exact Hin|exact Hv1|apply strictly_above, Hs].
  - (* enum *)
    cbn [Spec.view] in Hv. cbn [ProofPeel.nocyc]. rewrite Hl in *.
    destruct (def_of t) as [[]|]; try discriminate.
    destruct (by_index variants i) as [var|]; [|discriminate].
    match type of Hv with match ?q with _ => _ end = _ => destruct q as [l|] eqn:Hq; [|discriminate] end.
    eapply all2_view; [exact Hq|]. intros f v x1 Hf Hin Hx1. cbv beta in Hx1.
    match type of Hx1 with option_map _ ?q = _ => destruct q eqn:Hv1; [|discriminate] end.
    rewrite Forall_forall in IH. eapply IH; [exact Hin|exact Hv1|apply above_self].
  - (* seq *)
    assert (Hdef : exists el, def_of t = Some (TSequence el)).
    { cbn [Spec.view] in Hv. rewrite Hl in Hv. destruct (def_of t) as [[]|]; try discriminate; eauto. }
    destruct Hdef as (el & Hd). rewrite (view_seq _ _ _ _ _ _ _ Hl Hd) in Hv.
    cbn [ProofPeel.nocyc]. rewrite Hl, Hd.
    destruct (seq_view_inv _ _ _ _ Hv) as (inf & final & ds & Hp & Hds). rewrite Hp. cbn [is_some andb].
    eapply allv_view; [exact Hds|]. intros v x1 Hin Hv1. rewrite Forall_forall in IH.
    eapply IH; [exact Hin|exact Hv1|apply above_self].
  - (* array *)
    assert (Hdef : exists n el, def_of t = Some (TArray n el)).
    { cbn [Spec.view] in Hv. rewrite Hl in Hv. destruct (def_of t) as [[]|]; try discriminate; eauto. }
    destruct Hdef as (n & el & Hd). rewrite (view_arr _ _ _ _ _ _ _ _ Hl Hd) in Hv.
    cbn [ProofPeel.nocyc]. rewrite Hl, Hd.
    assert (Hs : strictly cyc el).
    { eapply above_step; [exact Ha|]. exists t. split; [exact Hl|]. rewrite Hd. reflexivity. }
    destruct (seq_view_inv _ _ _ _ Hv) as (inf & final & ds & Hp & Hds).
    rewrite (peel_reseen _ cyc _ _ Hp Hs). cbn [is_some andb].
    eapply allv_view; [exact Hds|]. intros v x1 Hin Hv1. rewrite Forall_forall in IH.
    eapply IH; [exact Hin|exact Hv1|apply strictly_above, Hs].
  - (* compact *)
    assert (Hdef : exists inner, def_of t = Some (TCompact inner)).
    { cbn [Spec.view] in Hv. rewrite Hl in Hv. destruct (def_of t) as [[]|]; try discriminate; eauto. }
    destruct Hdef as (inner & Hd). rewrite (view_compact _ _ _ _ _ _ _ Hl Hd) in Hv.
    cbn [ProofPeel.nocyc]. rewrite Hl, Hd.
    assert (Hs : strictly cyc inner).
    { eapply above_step; [exact Ha|]. exists t. split; [exact Hl|]. rewrite Hd. reflexivity. }
    destruct (view (elem && is_some (transparent t)) h inner v) eqn:Hv1; [|discriminate].
    apply andb_true_iff. split; [apply strictly_fresh, Hs|].
    eapply IH; [exact Hv1|apply strictly_above, Hs].
  - (* item *)
    cbn [Spec.view] in Hv. cbn [ProofPeel.nocyc]. rewrite Hl in *.
    destruct (def_of t) as [[]|]; try discriminate.
    destruct (by_index variants i) as [var|]; [|discriminate].
    destruct (pallet_items types t var) as [[inner items]|]; [|discriminate].
    destruct (by_index items j) as [item|]; [|discriminate].
    match type of Hv with match ?q with _ => _ end = _ => destruct q as [l|] eqn:Hq; [|discriminate] end.
    eapply all2_view; [exact Hq|]. intros f v x1 Hf Hin Hx1. cbv beta in Hx1.
    match type of Hx1 with option_map _ ?q = _ => destruct q eqn:Hv1; [|discriminate] end.
    rewrite Forall_forall in IH. eapply IH; [exact Hin|exact Hv1|apply above_self].
Qed.

(** ** Well-formed registries: every value has a parsed form *)

Hypothesis Hwf : well_formed types.

Lemma mentions_transparent t j c : transparent t = Some (j, c) -> mentions t j.
Proof.
  intros Ht. unfold mentions. destruct c.
  - destruct (transparent_true _ _ Ht) as (-> & _). reflexivity.
  - destruct (transparent_false _ _ Ht) as (f & -> & -> & _). exists f. cbn; auto.
Qed.

Lemma peel_total fuel : forall seen cpt id t,
  lookup id = Some t -> strictly seen id -> NoDup seen ->
  Forall (fun i => i < N.of_nat (List.length types))%N seen ->
  (List.length types < fuel + List.length seen)%nat ->
  (cpt = true -> forall c d, clos_refl_trans N (unwraps types) id c -> ~ compact_around types c d) ->
  exists x, peel types fuel seen cpt id = Some x.
Proof.
  induction fuel as [|fuel IH]; intros seen cpt id t Hl Hs Hn Hf Hlen Hc.
  { pose proof (ids_bound _ _ Hn Hf). lia. }
  cbn [peel]. pose proof (strictly_fresh _ _ Hs) as Hfr.
  unfold fresh in Hfr. apply negb_true_iff in Hfr. rewrite Hfr, Hl.
  destruct (transparent t) as [[j ic]|] eqn:Ht; [|eauto].
  assert (Hcc : cpt && ic = false).
  { destruct cpt, ic; try reflexivity. exfalso. apply (Hc eq_refl id j); [apply rt_refl|].
    exists t. auto. }
  rewrite Hcc. destruct (wf_closed _ Hwf id t j Hl (mentions_transparent _ _ _ Ht)) as (t' & Hl').
  destruct (IH (seen ++ [id]) (cpt || ic) j t' Hl') as ([l final] & ->); [..|eauto].
  - eapply above_step; [apply strictly_above; exact Hs|]. eapply transparent_contains; eauto.
  - apply (NoDup_Add (a := id) (l := seen)); [rewrite <- (app_nil_r seen) at 1; apply Add_app|].
    split; [exact Hn|]. intros Hin. exact (Hac _ (Hs _ Hin)).
  - apply Forall_app. split; [exact Hf|]. constructor; [|constructor]. exact (lookup_lt _ _ _ Hl).
  - rewrite app_length. cbn [List.length]. lia.
  - intros Hor c d Hr Hca. destruct cpt.
    + apply (Hc eq_refl c d); [|exact Hca]. eapply rt_trans; [apply rt_step|exact Hr].
      exists t, ic. auto.
    + cbn [orb] in Hor. subst ic. eapply (wf_compact _ Hwf id j c d); eauto. exists t. auto.
Qed.

Lemma peel_defined id t : lookup id = Some t -> exists x, peel_from types [] id = Some x.
Proof.
  intros Hl. unfold peel_from. eapply peel_total; eauto.
  - apply strictly_nil.
  - constructor.
  - cbn. lia.
  - discriminate.
Qed.

Lemma view_list_total {A B} (g : A -> value -> option B) (f : A -> value -> option bytes) ids vs bs :
  enc_list f ids vs = Some bs ->
  (forall i v b, In i ids -> In v vs -> f i v = Some b -> exists x, g i v = Some x) ->
  exists l, view_list g ids vs = Some l.
Proof.
  revert ids bs; induction vs as [|v vs IH]; intros [|i ids] bs; cbn [enc_list view_list]; try discriminate; eauto.
  destruct (f i v) as [x|] eqn:Hf; [|discriminate].
  destruct (enc_list f ids vs) as [xs|] eqn:Hx; [|discriminate]. intros _ H.
  destruct (H i v x) as (y & Hy); try (left; reflexivity); [exact Hf|].
  destruct (IH ids xs Hx) as (l & Hl).
  { intros i0 v0 b0 Hi Hv0. apply H; right; assumption. }
  rewrite Hy. fold (view_list g). rewrite Hl. eauto.
Qed.

Lemma elems_view_total el vs cpt bs : enc_all (enc cpt el) vs = Some bs ->
  (forall v b, In v vs -> enc cpt el v = Some b -> exists x, view true HNone el v = Some x) ->
  exists ds, elems_view types el vs = Some ds.
Proof.
  revert bs; induction vs as [|v vs IH]; intros bs; cbn [enc_all elems_view]; eauto.
  destruct (enc cpt el v) as [x|] eqn:Hf; [|discriminate].
  destruct (enc_all (enc cpt el) vs) as [xs|] eqn:Hx; [|discriminate]. intros _ H.
  destruct (H v x) as ([d l] & Hy); [left; reflexivity|exact Hf|].
  destruct (IH xs eq_refl) as (ds & Hds).
  { intros v0 b0 Hv0. apply H; right; assumption. }
  rewrite Hy, Hds. eauto.
Qed.

Lemma seq_view_total t el vs cpt bs : (exists t', lookup el = Some t') ->
  enc_all (enc cpt el) vs = Some bs ->
  (forall v b, In v vs -> enc cpt el v = Some b -> exists x, view true HNone el v = Some x) ->
  exists x, seq_view types t el vs = Some x.
Proof.
  intros (t' & Hl) He H. unfold seq_view. destruct (peel_defined _ _ Hl) as ([inf final] & ->).
  destruct (elems_view_total _ _ _ _ He H) as (ds & ->). eauto.
Qed.

Lemma fields_view_total h fs vs cpt bs :
  enc_list (fun f => enc cpt (f_ty f)) fs vs = Some bs ->
  (forall v, In v vs -> forall cpt id bs, enc cpt id v = Some bs ->
     forall elem h, exists x, view elem h id v = Some x) ->
  exists l, fields_view types h fs vs = Some l.
Proof.
  intros He H. unfold fields_view. eapply view_list_total; [exact He|].
  intros f v b _ Hin Hb. cbv beta in *.
  destruct (H v Hin _ _ _ Hb false (or_label (pass_label h (List.length fs)) (field_label f))) as (x & ->).
  cbn. eauto.
Qed.

Lemma mentions_def t d : def_of t = Some d -> t_def t = d.
Proof. intros H. destruct (def_of_cases _ _ H) as [-> _]. reflexivity. Qed.

Lemma view_total v : forall cpt id bs, enc cpt id v = Some bs ->
  forall elem h, exists x, view elem h id v = Some x.
Proof.
  induction v as [n|z|b|l|vs IH|vs IH|i vs IH| |vs IH|vs IH|v IH|n l|l|e|i l|i j vs IH] using value_ind';
    intros cpt id bs He elem h; destruct (enc_lookup _ _ _ _ _ He) as (t & Hl);
    try rewrite Forall_forall in IH.
  - cbn [Spec.enc Spec.view] in *. rewrite Hl in *.
    destruct (classify t); try (eexists; reflexivity);
      destruct (def_of t) as [[| | | | |[]| |]|]; try discriminate; eexists; reflexivity.
  - cbn [Spec.enc Spec.view] in *. rewrite Hl in *.
    destruct (def_of t) as [[| | | | |[]| |]|]; try discriminate; eexists; reflexivity.
  - cbn [Spec.view]. rewrite Hl. eauto.
  - cbn [Spec.view]. rewrite Hl. eauto.
  - cbn [Spec.enc] in He. rewrite Hl in He. destruct (def_of t) as [[fs| | | | | | |]|] eqn:Hd; try discriminate.
    rewrite (view_struct _ _ _ _ _ _ _ Hl Hd).
    destruct (cpt && (2 <=? List.length fs)%nat); [discriminate|].
    assert (Hall : exists x, match fields_view types h fs vs with
                 | Some l => Some (DComposite l, own_info t) | None => None end = Some x).
    { destruct (fields_view_total h fs vs cpt bs He IH) as (l & ->). eauto. }
    destruct elem, (transparent t) as [tr|], fs as [|f [|f2 fs]], vs as [|v [|v2 vs]]; try exact Hall.
    cbn [enc_list] in He. destruct (enc cpt (f_ty f) v) eqn:Hv; [|discriminate].
    eapply IH; [left; reflexivity|exact Hv].
  - cbn [Spec.enc] in He. rewrite Hl in He. destruct (def_of t) as [[| | | |ids| | |]|] eqn:Hd; try discriminate.
    rewrite (view_tuple _ _ _ _ _ _ _ Hl Hd).
    destruct (cpt && (2 <=? List.length ids)%nat); [discriminate|].
    assert (Hall : exists l, tuple_view types h ids vs = Some l).
    { unfold tuple_view. eapply view_list_total; [exact He|]. intros i v b Hi Hin Hb. cbv beta in *.
      destruct (enc_lookup _ _ _ _ _ Hb) as (ti & ->).
      destruct (IH v Hin _ _ _ Hb false (or_label (pass_label h (List.length ids)) (path_label ti))) as (x & ->).
      cbn. eauto. }
    destruct Hall as (l & ->). eauto.
  - cbn [Spec.enc] in He. rewrite Hl in He. destruct (def_of t) as [[|variants| | | | | |]|] eqn:Hd; try discriminate.
    destruct (by_index variants i) as [var|] eqn:Hi; [|discriminate].
    rewrite (view_enum _ _ _ _ _ _ _ _ _ Hl Hd Hi).
    destruct (variant_sig types t var); [discriminate|]. destruct (pallet_items types t var); [discriminate|].
    destruct (negb cpt && (i <? 256)%N); [|discriminate].
    destruct (enc_list (fun f => enc false (f_ty f)) (v_fields var) vs) as [b1|] eqn:Hb1; [|discriminate].
    destruct (fields_view_total HNone _ _ _ _ Hb1 IH) as (l & ->). eauto.
  - cbn [Spec.view]. rewrite Hl. eauto.
  - cbn [Spec.enc] in He. rewrite Hl in He. destruct (def_of t) as [[| |el| | | | |]|] eqn:Hd; try discriminate.
    rewrite (view_seq _ _ _ _ _ _ _ Hl Hd). cbv zeta in He.
    destruct (negb cpt && fits U32 _); [|discriminate].
    destruct (enc_all (enc false el) vs) as [b1|] eqn:Hb1; [|discriminate].
    eapply seq_view_total; [|exact Hb1|].
    + eapply (wf_closed _ Hwf); [exact Hl|]. unfold mentions. rewrite (mentions_def _ _ Hd). reflexivity.
    + intros v b Hin Hb. eapply IH; eauto.
  - cbn [Spec.enc] in He. rewrite Hl in He. destruct (def_of t) as [[| | |len el| | | |]|] eqn:Hd; try discriminate.
    rewrite (view_arr _ _ _ _ _ _ _ _ Hl Hd).
    destruct (negb cpt && _); [|discriminate].
    eapply seq_view_total; [|exact He|].
    + eapply (wf_closed _ Hwf); [exact Hl|]. unfold mentions. rewrite (mentions_def _ _ Hd). reflexivity.
    + intros v b Hin Hb. eapply IH; eauto.
  - cbn [Spec.enc] in He. rewrite Hl in He. destruct (def_of t) as [[| | | | | |inner|]|] eqn:Hd; try discriminate.
    rewrite (view_compact _ _ _ _ _ _ _ Hl Hd). destruct cpt; [discriminate|].
    destruct (IH _ _ _ He (elem && is_some (transparent t)) h) as ([d l] & ->). eauto.
  - cbn [Spec.enc Spec.view] in *. rewrite Hl in *.
    destruct (def_of t) as [[| | | | | | |st o]|]; try discriminate.
    destruct (bit_order_of types o); [|discriminate]. destruct (bit_store types st); [|discriminate]. eauto.
  - cbn [Spec.enc Spec.view] in *. rewrite Hl in *. destruct (classify t); try discriminate; eauto.
  - cbn [Spec.view]. rewrite Hl. eauto.
  - cbn [Spec.enc Spec.view] in *. rewrite Hl in *.
    destruct (def_of t) as [[|variants| | | | | |]|]; try discriminate.
    destruct (by_index variants i) as [var|]; [|discriminate].
    destruct (variant_sig types t var); [|discriminate]. eauto.
  - cbn [Spec.enc] in He. rewrite Hl in He. destruct (def_of t) as [[|variants| | | | | |]|] eqn:Hd; try discriminate.
    destruct (by_index variants i) as [var|] eqn:Hi; [|discriminate].
    destruct (pallet_items types t var) as [[inner items]|] eqn:Hp; [|discriminate].
    destruct (by_index items j) as [item|] eqn:Hj; [|discriminate].
    rewrite (view_item _ _ _ _ _ _ _ _ _ _ _ _ _ Hl Hd Hi Hp Hj).
    destruct (_ && _); [|discriminate].
    destruct (enc_list (fun f => enc false (f_ty f)) (v_fields item) vs) as [b1|] eqn:Hb1; [|discriminate].
    destruct (fields_view_total HNone _ _ _ _ Hb1 IH) as (l & ->). eauto.
Qed.

End Wf.

(** ** Encodings are bytes *)

Section Bytes.
Variable types : list ty.
Local Notation enc := (enc types).

Lemma enc_list_bytes {A} (f : A -> value -> option bytes) ids vs bs :
  enc_list f ids vs = Some bs -> (forall i v b, In v vs -> f i v = Some b -> is_bytes b) -> is_bytes bs.
Proof.
  revert ids bs; induction vs as [|v vs IH]; intros [|i ids] bs; cbn [enc_list]; try discriminate.
  - intros H; injection H as <-. constructor.
  - destruct (f i v) as [x|] eqn:Hf; [|discriminate].
    destruct (enc_list f ids vs) as [xs|] eqn:Hx; [|discriminate]. intros H; injection H as <-. intros H.
    apply is_bytes_app. split; [eapply H; [left; reflexivity|exact Hf]|].
    eapply IH; [exact Hx|]. intros i0 v0 b0 Hv0. apply H. right. exact Hv0.
Qed.

Lemma enc_all_bytes (f : value -> option bytes) vs bs :
  enc_all f vs = Some bs -> (forall v b, In v vs -> f v = Some b -> is_bytes b) -> is_bytes bs.
Proof.
  revert bs; induction vs as [|v vs IH]; intros bs; cbn [enc_all].
  - intros H; injection H as <-. constructor.
  - destruct (f v) as [x|] eqn:Hf; [|discriminate].
    destruct (enc_all f vs) as [xs|] eqn:Hx; [|discriminate]. intros H; injection H as <-. intros H.
    apply is_bytes_app. split; [eapply H; [left; reflexivity|exact Hf]|].
    eapply IH; [reflexivity|]. intros v0 b0 Hv0. apply H. right. exact Hv0.
Qed.

Lemma flat_le_bytes k l : is_bytes (flat_map (le_bytes k) l).
Proof.
  induction l as [|x l IH]; cbn [flat_map]; [constructor|].
  apply is_bytes_app. split; [apply le_bytes_is_bytes|exact IH].
Qed.

Lemma era_enc_bytes e : is_bytes (era_enc e).
Proof.
  destruct e; unfold era_enc; [|apply le_bytes_is_bytes]. constructor; [reflexivity|constructor].
Qed.

Lemma max_bits_fits n : (n <= max_bits)%N -> fits U32 n = true.
Proof. intros H. apply fits_spec. unfold max_bits, umax in *. cbn in *. lia. Qed.

Lemma byte_ltb i : (i <? 256)%N = true -> is_byte i.
Proof. intros H. apply N.ltb_lt. exact H. Qed.

Ltac split_guard :=
  repeat match goal with
  | H : guard _ _ = Some _ |- _ => apply guard_ok in H; destruct H as [H ->]
  | H : (_ && _)%bool = true |- _ => apply andb_true_iff in H; destruct H
  end.

Theorem enc_bytes v : forall cpt id bs, enc cpt id v = Some bs -> is_bytes bs.
Proof.
  induction v as [n|z|b|l|vs IH|vs IH|i vs IH| |vs IH|vs IH|v IH|n l|l|e|i l|i j vs IH] using value_ind';
    intros cpt id bs He; cbn [Spec.enc] in He; destruct (lookup types id) as [t|]; try discriminate;
    try rewrite Forall_forall in IH.
  - assert (Hd : match def_of t with
          | Some (TPrimitive (PrU w)) => guard (fits w n) (if cpt then compact_enc n else le_bytes (usize w) n)
          | Some (TPrimitive PrU256) => guard (negb cpt && (n <? 2 ^ 256)%N) (le_bytes 32 n)
          | Some (TPrimitive PrChar) => guard (negb cpt && scalar n) (le_bytes 4 n)
          | _ => None end = Some bs -> is_bytes bs).
    { destruct (def_of t) as [[| | | | |[]| |]|]; try discriminate; intros H; split_guard;
        try apply le_bytes_is_bytes.
      destruct cpt; [eapply compact_enc_fits_is_bytes; eauto|apply le_bytes_is_bytes]. }
    destruct (classify t); try exact (Hd He).
    destruct cpt; split_guard; [eapply compact_enc_fits_is_bytes; eauto|apply le_bytes_is_bytes].
  - destruct (def_of t) as [[| | | | |[]| |]|]; try discriminate; split_guard; apply le_bytes_is_bytes.
  - destruct (def_of t) as [[| | | | |[]| |]|]; try discriminate. split_guard.
    destruct b; (constructor; [reflexivity|constructor]).
  - destruct (def_of t) as [[| | | | |[]| |]|]; try discriminate. cbv zeta in He. split_guard.
    apply is_bytes_app. split; [eapply compact_enc_fits_is_bytes; eauto|apply utf8s_is_bytes; assumption].
  - destruct (def_of t) as [[]|]; try discriminate. destruct (cpt && _); [discriminate|].
    eapply enc_list_bytes; [exact He|]. intros f v b Hin Hb. exact (IH v Hin _ _ _ Hb).
  - destruct (def_of t) as [[]|]; try discriminate. destruct (cpt && _); [discriminate|].
    eapply enc_list_bytes; [exact He|]. intros f v b Hin Hb. exact (IH v Hin _ _ _ Hb).
  - destruct (def_of t) as [[]|]; try discriminate.
    destruct (by_index variants i) as [var|]; [|discriminate].
    destruct (variant_sig types t var); [discriminate|]. destruct (pallet_items types t var); [discriminate|].
    destruct (negb cpt && (i <? 256)%N) eqn:Hi; [|discriminate]. apply andb_true_iff in Hi.
    destruct (enc_list (fun f => enc false (f_ty f)) (v_fields var) vs) as [b1|] eqn:Hb1; [|discriminate].
    injection He as <-. constructor; [apply byte_ltb; tauto|].
    eapply enc_list_bytes; [exact Hb1|]. intros f v b Hin Hb. exact (IH v Hin _ _ _ Hb).
  - destruct (def_of t) as [[|[]| | | | | |]|]; try discriminate. split_guard. constructor.
  - destruct (def_of t) as [[]|]; try discriminate. cbv zeta in He.
    destruct (negb cpt && fits U32 _) eqn:Hf; [|discriminate]. apply andb_true_iff in Hf. destruct Hf as [_ Hf].
    destruct (enc_all (enc false elem) vs) as [b1|] eqn:Hb1; [|discriminate]. injection He as <-.
    apply is_bytes_app. split; [eapply compact_enc_fits_is_bytes; eauto|].
    eapply enc_all_bytes; [exact Hb1|]. intros v b Hin Hb. exact (IH v Hin _ _ _ Hb).
  - destruct (def_of t) as [[]|]; try discriminate.
    destruct (negb cpt && _); [|discriminate].
    eapply enc_all_bytes; [exact He|]. intros v b Hin Hb. eapply IH; eauto.
  - destruct (def_of t) as [[]|]; try discriminate. destruct cpt; [discriminate|]. eapply IH; eauto.
  - destruct (def_of t) as [[]|]; try discriminate.
    destruct (bit_order_of types order); [|discriminate]. destruct (bit_store types store); [|discriminate].
    cbv zeta in He. split_guard. apply is_bytes_app. split; [|apply flat_le_bytes].
    apply (compact_enc_fits_is_bytes U32), max_bits_fits. apply N.leb_le. assumption.
  - destruct (classify t); try discriminate; split_guard; apply is_bytesb_spec; assumption.
  - destruct (classify t); try discriminate; split_guard. apply era_enc_bytes.
  - destruct (def_of t) as [[]|]; try discriminate.
    destruct (by_index variants i) as [var|]; [|discriminate].
    destruct (variant_sig types t var); [|discriminate]. split_guard.
    constructor; [apply byte_ltb; assumption|apply is_bytesb_spec; assumption].
  - destruct (def_of t) as [[]|]; try discriminate.
    destruct (by_index variants i) as [var|]; [|discriminate].
    destruct (pallet_items types t var) as [[inner items]|]; [|discriminate].
    destruct (by_index items j) as [item|]; [|discriminate].
    destruct (negb cpt && (i <? 256)%N && (j <? 256)%N) eqn:Hi; [|discriminate].
    apply andb_true_iff in Hi. destruct Hi as [Hi Hj]. apply andb_true_iff in Hi. destruct Hi as [_ Hi].
    destruct (enc_list (fun f => enc false (f_ty f)) (v_fields item) vs) as [b1|] eqn:Hb1; [|discriminate].
    injection He as <-. constructor; [apply byte_ltb; exact Hi|].
    constructor; [apply byte_ltb; exact Hj|].
    eapply enc_list_bytes; [exact Hb1|]. intros f v b Hin Hb. exact (IH v Hin _ _ _ Hb).
Qed.
End Bytes.
