(** C73: arrays and vectors and their elements. *)
From Coq Require Import Lia Relations.
From Verif Require Import Base Compact Types Indicators Decode Spec SpecSource SpecKinds SpecLabels SpecParts Api ProofBase ProofSim ProofTables ProofLabels ProofHint
  ProofRead ProofPeel ProofLeaf ProofSpec ProofRel ProofMain ProofCor ProofKinds ProofKinds2 ProofSafe2 ProofCompact ProofParts ProofParts2.
Local Open Scope list_scope.

Definition same_data (x y : ext pdata) : Prop := x_data x = x_data y.

Section Info.
Context {E : Type}.
Variable b : buffer E.
Variable r : registry E.

(** Type information collected before only adds to the information of the result. *)
Lemma decode_info F : forall inp c i1 i2, sim same_data (decode b r F inp (Propagated c i1)) (decode b r F inp (Propagated c i2)).
Proof.
  induction F as [|F IH]; intros inp c i1 i2; [intros p e; repeat split|].
  cbn [decode]. unfold decode_body. eapply sim_bind; [apply sim_eq|]. intros [t id] ? <-. cbv zeta.
  eapply sim_bind; [apply sim_eq|]. intros k ? <-.
  assert (Ha : forall i, exists i', add_info (Propagated c i) (info_from_ty t) = Propagated c i').
  { intros i. unfold add_info. destruct (info_is_empty _); eexists; reflexivity. }
  destruct (Ha i1) as [j1 ->], (Ha i2) as [j2 ->]. clear Ha i1 i2.
  destruct k; cbn [decode_checked checker_of info_of].
  2-6: repeat (eapply sim_bind; [apply sim_eq|intros ? ? <-]); apply sim_ret; reflexivity.
  unfold decode_plain, decode_elements_set. cbn [checker_of info_of]. destruct (t_def t) as [fs|vs|el|n el|ids|pr|inner|st od].
  - eapply sim_bind; [apply sim_eq|intros ? ? <-]. apply sim_ret. reflexivity.
  - eapply sim_bind; [apply sim_eq|intros ? ? <-]. destruct vs; [apply sim_ret; reflexivity|].
    eapply sim_bind; [apply sim_eq|intros ? ? <-]. apply sim_ret. reflexivity.
  - do 3 (eapply sim_bind; [apply sim_eq|intros ? ? <-]). destruct (_ =? _)%N; [apply sim_ret; reflexivity|].
    eapply sim_bind; [apply sim_eq|intros ? ? <-]. apply sim_ret. reflexivity.
  - do 2 (eapply sim_bind; [apply sim_eq|intros ? ? <-]). destruct (_ =? _)%N; [apply sim_ret; reflexivity|].
    eapply sim_bind; [apply sim_eq|intros ? ? <-]. apply sim_ret. reflexivity.
  - destruct ids as [|? [|? ?]]; repeat (eapply sim_bind; [apply sim_eq|intros ? ? <-]); apply sim_ret; reflexivity.
  - eapply sim_bind; [apply sim_eq|intros ? ? <-]. apply sim_ret. reflexivity.
  - do 2 (eapply sim_bind; [apply sim_eq|intros ? ? <-]). apply IH.
  - do 2 (eapply sim_bind; [apply sim_eq|intros ? ? <-]). apply sim_ret. reflexivity.
Qed.
End Info.

Section Elements.
Variable types : list ty.
Variable data : bytes.
Local Notation buf := (@slice_buffer unit data).
Local Notation reg := (@portable unit types).
Local Notation dec := (decode_with_type buf reg).

(** An element alone ([m]) and unwrapped ([x]). *)
Definition wrapped (id : N) (m x : outcome parser_err (ext pdata) * nat * unit) : Prop :=
  snd (fst m) = snd (fst x) /\ snd m = snd x /\
  match fst (fst x) with
  | Ok z => exists y, fst (fst m) = Ok y /\ unwrapped types id (x_data y) (x_data z)
  | Err e => fst (fst m) = Err e
  | OutOfFuel => fst (fst m) = OutOfFuel
  | Panic => fst (fst m) = Panic
  end.

Lemma enter_any d id t P pos : lookup types id = Some t -> transparent t <> None ->
  decode_body buf reg d (Symbol id) P pos tt = decode_plain buf reg d t id (add_info P (info_from_ty t)) pos tt.
Proof.
  intros Hl Ht. unfold decode_body. unfold bind at 1. unfold bind at 1. unfold map_err.
  pose proof (resolve_total types id pos tt) as Hr. rewrite Hl in Hr. rewrite Hr. unfold ret at 1.
  assert (Hk : checked_from_type buf reg t pos tt = (Ok CNone, pos, tt)).
  { unfold checked_from_type. rewrite hinted_classify. unfold hinted_of. unfold transparent in Ht.
    destruct (classify t); try congruence. destruct (strs_eqb _ _); congruence || reflexivity. }
  unfold bind at 1. rewrite Hk. reflexivity.
Qed.

Lemma husk_wrapped fuel : forall t id c acc p hu q e, lookup types id = Some t ->
  husk_loop reg fuel t id c acc p tt = (Ok hu, q, e) ->
  exists k, forall F inf pos, wrapped id (decode buf reg (k + F) (Symbol id) (Propagated c inf) pos tt)
    (decode buf reg F (Resolved (hu_ty hu) (hu_id hu)) (with_checker (hu_checker hu)) pos tt).
Proof.
  induction fuel as [|fuel IH]; intros t id c acc p hu q e Hl H; [discriminate|].
  rewrite husk_loop_S in H. destruct (transparent t) as [[inner [|]]|] eqn:Ht.
  - inv_bind H. apply lift_int_ok in H0. destruct H0 as (H0 & -> & ->). apply reject_compact_ok in H0.
    inv_bind H. apply lift_int_ok in H1. destruct H1 as (H1 & -> & ->).
    inv_bind H. apply resolve_ok in H2. destruct H2 as (Hl1 & -> & ->).
    destruct (IH _ _ _ _ _ _ _ _ Hl1 H) as [k Hk]. exists (S k). intros F inf pos.
    cbn [Nat.add decode]. rewrite (enter_any _ id t _ pos Hl) by congruence.
    destruct (transparent_true _ _ Ht) as [Hd _]. unfold decode_plain. rewrite Hd.
    assert (Ha : checker_of (add_info (Propagated c inf) (info_from_ty t)) = c) by (unfold add_info; destruct (info_is_empty _); reflexivity).
    rewrite Ha. unfold bind at 1. unfold reject_compact_m, reject_compact. rewrite H0. unfold map_err at 1. cbn [lift]. unfold ret at 1.
    unfold bind. unfold lift_p. rewrite H1. unfold map_err at 1. cbn [lift]. unfold ret at 1.
    specialize (Hk F (info_of (add_info (Propagated c inf) (info_from_ty t))) pos). unfold wrapped in *.
    destruct (decode buf reg F _ _ pos tt) as [[o1 q1] []]. destruct (decode buf reg (k + F) _ _ pos tt) as [[o2 q2] []]. cbn [fst snd] in *.
    destruct Hk as (-> & _ & Hk). split; [reflexivity|]. split; [reflexivity|]. destruct o1; try exact Hk.
    destruct Hk as (y & -> & Hy). exists y. split; [reflexivity|]. eapply UW_compact; eassumption.
  - destruct (transparent_false _ _ Ht) as (f & Hd & -> & _). rewrite Hd in H.
    inv_bind H. apply lift_int_ok in H0. destruct H0 as (H0 & -> & ->).
    inv_bind H. apply resolve_ok in H1. destruct H1 as (Hl1 & -> & ->).
    destruct (IH _ _ _ _ _ _ _ _ Hl1 H) as [k Hk]. exists (S k). intros F inf pos.
    cbn [Nat.add decode]. rewrite (enter_any _ id t _ pos Hl) by congruence.
    unfold decode_plain. rewrite Hd.
    assert (Ha : checker_of (add_info (Propagated c inf) (info_from_ty t)) = c) by (unfold add_info; destruct (info_is_empty _); reflexivity).
    rewrite Ha. cbn [decode_fields fields_loop].
    apply check_id_ok in H0. destruct H0 as [Hf ->]. cbn [c_hint with_hint compact_at cycle_check] in Hk.
    assert (Hff : for_field c f = inl (with_checker (Checker (compact_at c) (or_label (c_hint c) (field_label f)) (cycle_check c ++ [f_ty f])))) by (apply for_field_ok; auto).
    unfold bind. unfold lift_p. rewrite Hff. unfold map_err at 1. cbn [lift]. unfold ret at 1.
    specialize (Hk F [] pos). unfold wrapped in *. unfold with_checker at 1.
    destruct (decode buf reg F _ _ pos tt) as [[o1 q1] []]. destruct (decode buf reg (k + F) _ _ pos tt) as [[o2 q2] []]. cbn [fst snd] in *.
    destruct Hk as (-> & _ & Hk). destruct o1; [destruct Hk as (y & -> & Hy)|subst o2..]; (split; [reflexivity|]); (split; [reflexivity|]); try reflexivity.
    eexists. split; [reflexivity|]. eapply UW_struct; eassumption.
  - injection H as <- <- <-. exists 0. intros F inf pos. cbn [Nat.add hu_ty hu_id hu_checker].
    assert (Hs : decode buf reg F (Symbol id) (Propagated c inf) pos tt = decode buf reg F (Resolved t id) (Propagated c inf) pos tt).
    { destruct F as [|F]; [reflexivity|]. cbn [decode]. unfold decode_body. unfold bind at 1. unfold bind at 1. unfold map_err at 1.
      pose proof (resolve_total types id pos tt) as Hr. rewrite Hl in Hr. rewrite Hr. reflexivity. }
    rewrite Hs. pose proof (decode_info buf reg F (Resolved t id) c inf [] pos tt) as Hi. unfold with_checker. unfold wrapped, alike in *.
    destruct (decode buf reg F (Resolved t id) (Propagated c inf) pos tt) as [[o1 q1] []].
    destruct (decode buf reg F (Resolved t id) (Propagated c []) pos tt) as [[o2 q2] []]. cbn [fst snd] in *. destruct Hi as (-> & _ & Hi).
    split; [reflexivity|]. split; [reflexivity|]. destruct o1, o2; cbn in Hi; try contradiction; try congruence.
    exists a. split; [reflexivity|]. rewrite Hi. eapply UW_plain; eassumption.
Qed.

(** Elements in their place, and alone. *)
Lemma element_unwrapped el hu c q e p0 : husk_type reg el c p0 tt = (Ok hu, q, e) -> forall p,
  (exists x, fst (fst (dec (Resolved (hu_ty hu) (hu_id hu)) (with_checker (hu_checker hu)) p tt)) = Err x /\ cycle_p x) \/
  exists o, exists q', decode_at types data el p = (o, q') /\ returns o /\
    match o with
    | Ok y => exists z, dec (Resolved (hu_ty hu) (hu_id hu)) (with_checker (hu_checker hu)) p tt = (Ok z, q', tt) /\ unwrapped types el (x_data y) (x_data z)
    | Err x => dec (Resolved (hu_ty hu) (hu_id hu)) (with_checker (hu_checker hu)) p tt = (Err x, q', tt)
    | _ => False
    end.
Proof.
  intros H p. unfold husk_type in H. inv_bind H. apply lift_int_ok in H0. destruct H0 as (H0 & -> & ->).
  apply check_id_ok in H0. destruct H0 as [_ ->]. cbn [cycle_check] in H.
  inv_bind H. apply resolve_ok in H0. destruct H0 as (Hl & -> & ->).
  destruct (husk_wrapped _ _ _ _ _ _ _ _ _ Hl H) as [k Hk]. specialize (Hk (decode_fuel buf reg) [] p).
  destruct (decode_ahead buf reg (k + decode_fuel buf reg) (Symbol el) (Propagated (Checker None HNone (cycle_check c ++ [el])) []) propagated_new
    (conj (conj eq_refl (conj eq_refl (incl_nil_l _))) eq_refl) p tt) as [(x & Hx & Hy)|Ha].
  - left. unfold wrapped in Hk. unfold decode_with_type. destruct Hk as (_ & _ & Hk). rewrite Hx in Hk.
    destruct (fst (fst (decode buf reg (decode_fuel buf reg) _ _ p tt))) as [z|z| |]; try discriminate.
    + destruct Hk as (y & Hk & _). discriminate.
    + exists z. split; [reflexivity|]. congruence.
  - right. destruct (depth_bound buf reg (good_slice data) (good_portable types) el p tt (k + decode_fuel buf reg)) as [Hr He].
    { unfold decode_fuel. lia. }
    unfold decode_at. rewrite <- He. unfold wrapped, alike in *. unfold decode_with_type.
    destruct (decode buf reg (k + decode_fuel buf reg) (Symbol el) propagated_new p tt) as [[o1 q1] []].
    destruct (decode buf reg (k + decode_fuel buf reg) (Symbol el) _ p tt) as [[o2 q2] []].
    destruct (decode buf reg (decode_fuel buf reg) (Resolved _ _) _ p tt) as [[o3 q3] []]. cbn [fst snd] in *.
    destruct Ha as (-> & _ & Ha), Hk as (-> & _ & Hk). exists o1, q3. split; [reflexivity|]. split; [exact Hr|].
    destruct o2, o1; cbn in Ha; try contradiction; try (subst; destruct Hr as [[? Hr]|[? Hr]]; discriminate).
    + subst a0. destruct o3; try discriminate.
      * destruct Hk as (y & Hy & Hu). injection Hy as <-. exists a0. auto.
    + destruct o3; try discriminate.
      * destruct Hk as (y & Hy & Hu). discriminate.
      * congruence.
Qed.

Lemma elements_unwrapped n el hu c qh e p0 : husk_type reg el c p0 tt = (Ok hu, qh, e) ->
  forall p o q, one_by_one types data (repeat el n) p o q ->
  lagging (fun l ds => Forall2 (fun y d => unwrapped types el (x_data y) d) l ds) (elements_loop dec n hu p tt) o q.
Proof.
  intros Hh. induction n as [|n IH]; intros p o q H; cbn [elements_loop repeat] in *.
  - inversion H; subst. right. split; [reflexivity|]. exists []. auto.
  - unfold bind at 1. destruct (element_unwrapped el hu c qh e p0 Hh p) as [(x & Hx & Hy)|(o1 & q1 & Hd & Hr & Ho)].
    { left. destruct (dec _ _ p tt) as [[o1 q1] e1]. cbn [fst] in Hx. subst o1. exists x. auto. }
    destruct o1 as [y|y| |]; try contradiction.
    + destruct Ho as (z & -> & Hu). unfold bind.
      assert (Hrest : exists o2 q2, one_by_one types data (repeat el n) q1 o2 q2 /\
        match o2 with Ok l => o = Ok (y :: l) /\ q = q2 | Err z => o = Err z /\ q = q2 | _ => False end).
      { inversion H; subst; try congruence.
        - assert (q1 = q0) by congruence. subst. exists (Err y0), q. auto.
        - assert (q1 = q0) by congruence. subst. exists (Ok l), q. assert (x = y) by congruence. subst. auto. }
      destruct Hrest as (o2 & q2 & H2 & H3). specialize (IH q1 o2 q2 H2). unfold lagging in IH |- *.
      destruct (elements_loop dec n hu q1 tt) as [[o3 q3] e3]. cbn [fst snd] in IH. destruct IH as [(w & -> & Hz)|[-> IH]]; [left; exists w; auto|right].
      destruct o2 as [l|w| |]; try contradiction; destruct H3 as [-> ->].
      * destruct IH as (a & -> & Ha). unfold ret. cbn [fst snd]. split; [reflexivity|]. eexists. split; [reflexivity|]. constructor; assumption.
      * subst o3. cbn [fst snd]. auto.
    + rewrite Ho. right. cbn [fst snd]. inversion H; subst; try congruence. split; congruence.
Qed.

Lemma elements_set_parts t el infos final n p0 c o q : cycle_check c = [] -> compact_at c = None ->
  peel_from types [] el = Some (infos, final) ->
  one_by_one types data (repeat el (N.to_nat n)) p0 o q ->
  fst (fst (decode_elements_set reg dec el n (Propagated c (own_info t)) p0 tt)) <> OutOfFuel ->
  lagging (a_sequence types t el infos) (decode_elements_set reg dec el n (Propagated c (own_info t)) p0 tt) o q.
Proof.
  intros Hc0 Hc Hp H. remember (decode_elements_set reg dec el n (Propagated c (own_info t)) p0 tt) as R eqn:HR. intros Hne.
  unfold decode_elements_set in HR. cbn [checker_of info_of] in HR. unfold bind at 1 in HR. unfold reject_compact_m, reject_compact in HR. rewrite Hc in HR.
  unfold map_err at 1 in HR. cbn [lift] in HR. unfold ret at 1 in HR. unfold bind at 1 in HR. unfold map_err in HR.
  unfold peel_from in Hp. destruct (peel_chain types _ [] false HNone el infos final Hp) as (s' & cp' & h' & Hch).
  rewrite <- Hc0 in Hch. destruct (chain_husk_type types (E := unit) c el _ _ _ _ _ Hch) as (cat & tf & _ & Hlf & Hok).
  destruct (Hok p0 tt) as [Hh|(q1 & e1 & Hh)]; rewrite Hh in HR; [|destruct Hne; subst R; reflexivity].
  clear Hne. cbn [hu_info] in HR. subst R. destruct (N.eqb_spec n 0) as [->|Hn].
  - cbn [N.to_nat repeat] in H. inversion H; subst. right. split; [reflexivity|]. eexists. split; [reflexivity|].
    exists []. split; [constructor|]. rewrite sequence_of_nil. reflexivity.
  - pose proof (elements_unwrapped (N.to_nat n) el _ _ _ _ _ Hh p0 o q H) as He.
    unfold bind. unfold lagging in *. destruct (elements_loop _ _ _ _ _) as [[o3 q3] e3]. cbn [fst snd] in *.
    destruct He as [(z & -> & Hz)|[-> He]]; [left; exists z; auto|right].
    destruct o as [l|z| |]; try contradiction.
    + destruct He as (a & -> & Ha). unfold ret. cbn [fst snd]. split; [reflexivity|]. eexists. split; [reflexivity|].
      exists a. split; [exact Ha|]. unfold sequence_of. rewrite wrap_sequence_collect. destruct (collect _); reflexivity.
    + subst o3. auto.
Qed.

Theorem array_parts id t n el infos final pos o q o' q' : lookup types id = Some t -> def_of t = Some (TArray n el) ->
  peel_from types [] el = Some (infos, final) ->
  decode_at types data id pos = (o, q) -> one_by_one types data (repeat el (N.to_nat n)) pos o' q' ->
  composed types (a_sequence types t el infos) o' q' o q.
Proof.
  intros Hl Hd Hp H H'. eapply finish; [exact H|]. pose proof (def_of_same t _ Hd) as Ht.
  destruct (decode_at_body types data id pos) as [He Hr]. rewrite H in He, Hr. injection He as -> ->. cbn [fst] in Hr.
  revert Hr. rewrite (enter types data id t pos Hl); [|congruence|congruence].
  unfold decode_plain. rewrite Ht. intros Hr. eapply elements_set_parts; try eassumption; try reflexivity.
  intros Hn. rewrite Hn in Hr. destruct Hr as [[? Hr]|[? Hr]]; discriminate.
Qed.

Theorem vector_parts id t n el infos final pos o q o' q' : is_bytes data -> lookup types id = Some t -> def_of t = Some (TSequence el) ->
  peel_from types [] el = Some (infos, final) ->
  fits U32 n = true -> has data pos (compact_enc n) ->
  decode_at types data id pos = (o, q) ->
  one_by_one types data (repeat el (N.to_nat n)) (pos + List.length (compact_enc n)) o' q' ->
  composed types (a_sequence types t el infos) o' q' o q.
Proof.
  intros Hb Hl Hd Hp Hf Hh H H'. eapply finish; [exact H|]. pose proof (def_of_same t _ Hd) as Ht.
  destruct (decode_at_body types data id pos) as [He Hr]. rewrite H in He, Hr. injection He as -> ->. cbn [fst] in Hr.
  revert Hr. rewrite (enter types data id t pos Hl); [|congruence|congruence].
  unfold decode_plain. rewrite Ht. unfold bind.
  assert (Hg : get_compact U32 buf pos tt = (Ok n, (pos + List.length (compact_enc n))%nat, tt)) by (apply (get_compact_has data Hb); auto).
  rewrite Hg. cbn [checker_of info_of]. intros Hr. eapply elements_set_parts; try eassumption; try reflexivity.
  intros Hn. rewrite Hn in Hr. destruct Hr as [[? Hr]|[? Hr]]; discriminate.
Qed.
End Elements.
