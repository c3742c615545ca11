(** V14 and V15 metadata: proofs (C33, C34). *)
From Coq Require Import Lia ZifyBool ZifyNat ZifyN.
From Verif Require Import Base Compact Types Indicators Decode Sign Meta Spec SpecMeta ProofBase ProofLeaf ProofTables ProofPeel ProofCor Api ApiSign.
Local Open Scope string_scope.
Local Open Scope list_scope.

(** ** Last elements *)

Lemma last_of {A B} (key : A -> bool) (val : A -> option B) (l : list A) (acc : option B) :
  let r := fold_left (fun acc x => if key x then val x else acc) l acc in
  (exists pre x post, l = pre ++ x :: post /\ key x = true /\ forallb (fun y => negb (key y)) post = true /\ r = val x) \/
  (forallb (fun y => negb (key y)) l = true /\ r = acc).
Proof.
  revert acc. induction l as [|a l IH]; intros acc; cbn [fold_left forallb]; [auto|].
  destruct (IH (if key a then val a else acc)) as [(pre & x & post & -> & H1 & H2 & H3)|[H1 H2]].
  - left. exists (a :: pre), x, post. auto.
  - destruct (key a) eqn:Hk.
    + left. exists [], a, l. auto.
    + right. auto.
Qed.

Lemma not_in_names {A} (f : A -> string) name l :
  forallb (fun y => negb (String.eqb (f y) name)) l = true <-> ~ In name (map f l).
Proof.
  rewrite forallb_forall, in_map_iff. split.
  - intros H (y & Hy & Hin). specialize (H y Hin). rewrite Hy, String.eqb_refl in H. discriminate.
  - intros H y Hin. destruct (String.eqb_spec (f y) name); [exfalso; apply H; eauto|reflexivity].
Qed.

Lemma last_param_spec name l :
  match last_param name l with Some id => named name l id | None => missing name l end.
Proof.
  unfold last_param. destruct (last_of (fun p => String.eqb (fst p) name) snd l None) as [(pre & [k v] & post & -> & H1 & H2 & H3)|[H1 H2]].
  - rewrite H3. cbn [fst snd] in *. apply String.eqb_eq in H1. subst k. apply not_in_names in H2.
    destruct v; [exists pre, post; auto|]. right. exists pre, post. auto.
  - rewrite H2. left. apply not_in_names, H1.
Qed.

Lemma last_split {A} (f : A -> string) name pre pre' (x x' : A) post post' :
  pre ++ x :: post = pre' ++ x' :: post' -> f x = name -> f x' = name ->
  ~ In name (map f post) -> ~ In name (map f post') -> x = x' /\ post = post'.
Proof.
  intros H Hx Hx' Hp Hp'. revert pre' H. induction pre as [|a pre IH]; intros [|a' pre'] H; cbn [app] in H.
  - injection H; auto.
  - exfalso. injection H as -> ->. apply Hp. rewrite map_app. apply in_or_app. right. left. exact Hx'.
  - exfalso. injection H as <- <-. apply Hp'. rewrite map_app. apply in_or_app. right. left. exact Hx.
  - injection H as _ H. eapply IH, H.
Qed.

Lemma named_unique name l a b : named name l a -> named name l b -> a = b.
Proof.
  intros (p1 & q1 & H1 & N1) (p2 & q2 & H2 & N2). rewrite H1 in H2.
  eapply (last_split fst name) in H2; try reflexivity; auto. destruct H2 as [H2 _]. congruence.
Qed.

Lemma named_missing name l a : named name l a -> missing name l -> False.
Proof.
  intros (p1 & q1 & H1 & N1) [H|(p2 & q2 & H2 & N2)].
  - apply H. rewrite H1, map_app. apply in_or_app. right. left. reflexivity.
  - rewrite H1 in H2. eapply (last_split fst name) in H2; try reflexivity; auto. destruct H2 as [H2 _]. congruence.
Qed.

Lemma params_ok l : params_answer l (process_params l).
Proof.
  unfold process_params.
  pose proof (last_param_spec "Address" l) as Ha. pose proof (last_param_spec "Call" l) as Hc.
  pose proof (last_param_spec "Extra" l) as He. pose proof (last_param_spec "Signature" l) as Hs.
  destruct (last_param "Address" l); [|constructor; auto]. destruct (last_param "Call" l); [|econstructor; eauto].
  destruct (last_param "Extra" l); [|econstructor; eauto]. destruct (last_param "Signature" l); econstructor; eauto.
Qed.

Lemma params_unique l r1 r2 : params_answer l r1 -> params_answer l r2 -> r1 = r2.
Proof.
  intros H1 H2. destruct H1; destruct H2; try reflexivity;
    try (exfalso; match goal with A : named ?n l _, B : missing ?n l |- _ => exact (named_missing _ _ _ A B) end);
    repeat match goal with A : named ?n l ?x, B : named ?n l ?y |- _ =>
      pose proof (named_unique _ _ _ _ A B); clear B end; subst; reflexivity.
Qed.

Section Types.
Variable types : list ty.

Lemma leads_unique seen cpt id r1 : leads types seen cpt id r1 -> forall r2, leads types seen cpt id r2 -> r1 = r2.
Proof.
  induction 1; intros r2 H'; inversion H'; subst; try contradiction; try congruence;
    match goal with A : lookup types ?i = Some ?t, B : lookup types ?i = Some ?t' |- _ => assert (t = t') by congruence; subst t' end;
    try congruence;
    match goal with A : transparent ?t = Some (?i, _), B : transparent ?t = Some (?i', _) |- _ => assert (i = i') by congruence; subst i' end;
    auto.
Qed.

Lemma husk_leads_loop fuel : forall t id c acc seen,
  lookup types id = Some t -> cycle_check c = seen ++ [id] -> ~ In id seen -> NoDup (seen ++ [id]) ->
  Forall (fun i => i < N.of_nat (List.length types))%N (seen ++ [id]) ->
  (List.length types < fuel + List.length (seen ++ [id]))%nat ->
  match fst (fst (husk_loop (@portable unit types) fuel t id c acc 0 tt)) with
  | Ok hu => leads types seen (compact_at c) id (inl (hu_id hu, hu_ty hu))
  | Err (RInternal x) => leads types seen (compact_at c) id (inr x)
  | _ => False
  end.
Proof.
  induction fuel as [|fuel IH]; intros t id c acc seen Hl Hc Hs Hn Hf Hfuel.
  { exfalso. pose proof (ids_bound _ _ Hn Hf). lia. }
  assert (Hnext : forall inner t1, lookup types inner = Some t1 -> ~ In inner (seen ++ [id]) ->
     NoDup ((seen ++ [id]) ++ [inner]) /\ Forall (fun i => i < N.of_nat (List.length types))%N ((seen ++ [id]) ++ [inner]) /\
     (List.length types < fuel + List.length ((seen ++ [id]) ++ [inner]))%nat).
  { intros inner t1 Hl1 Hi. repeat split.
    - apply NoDup_rev in Hn. rewrite <- (rev_involutive ((seen ++ [id]) ++ [inner])). apply NoDup_rev.
      rewrite rev_app_distr. cbn [rev app]. constructor; [rewrite <- in_rev; exact Hi|exact Hn].
    - apply Forall_app. split; [exact Hf|]. constructor; [eapply lookup_lt, Hl1|constructor].
    - rewrite (app_length (seen ++ [id])). cbn [List.length]. lia. }
  rewrite husk_loop_S. destruct (transparent t) as [[inner [|]]|] eqn:Ht.
  - unfold bind at 1, lift_int at 1, map_err at 1, reject_compact. destruct (compact_at c) as [outer|] eqn:Hca.
    { cbn. eapply LE_nested; eauto. }
    unfold lift at 1, ret at 1. unfold bind at 1, lift_int at 1, map_err at 1, check_id.
    cbn [with_compact_at cycle_check compact_at c_hint]. rewrite Hc.
    destruct (existsb (N.eqb inner) (seen ++ [id])) eqn:Hex.
    { cbn. eapply LE_compact; eauto. apply LE_cycle. apply existsb_exists in Hex. destruct Hex as (x & Hx & He).
      apply N.eqb_eq in He. subst x. exact Hx. }
    assert (Hni : ~ In inner (seen ++ [id])) by (apply fresh_spec; unfold fresh; rewrite Hex; reflexivity).
    unfold lift at 1, ret at 1. unfold bind at 1. pose proof (resolve_total (E := unit) types inner 0 tt) as Hr.
    destruct (lookup types inner) as [t1|] eqn:Hl1; rewrite Hr.
    2: { cbn. eapply LE_compact; eauto. apply LE_unresolved; auto. }
    destruct (Hnext _ _ Hl1 Hni) as (H1 & H2 & H3).
    specialize (IH t1 inner (Checker (Some id) (c_hint c) ((seen ++ [id]) ++ [inner])) (acc ++ own_info t) (seen ++ [id])
      Hl1 eq_refl Hni H1 H2 H3). cbn [compact_at] in IH.
    destruct (fst (fst _)) as [hu|[x|]| |]; try contradiction; eapply LE_compact; eauto.
  - destruct (transparent_false _ _ Ht) as (f & Hd & -> & _). rewrite Hd.
    unfold bind at 1, lift_int at 1, map_err at 1, check_id.
    rewrite Hc.
    destruct (existsb (N.eqb (f_ty f)) (seen ++ [id])) eqn:Hex.
    { cbn. eapply LE_field; eauto. apply LE_cycle. apply existsb_exists in Hex. destruct Hex as (x & Hx & He).
      apply N.eqb_eq in He. subst x. exact Hx. }
    assert (Hni : ~ In (f_ty f) (seen ++ [id])) by (apply fresh_spec; unfold fresh; rewrite Hex; reflexivity).
    unfold lift at 1, ret at 1. unfold bind at 1. pose proof (resolve_total (E := unit) types (f_ty f) 0 tt) as Hr.
    destruct (lookup types (f_ty f)) as [t1|] eqn:Hl1; rewrite Hr.
    2: { cbn. eapply LE_field; eauto. apply LE_unresolved; auto. }
    destruct (Hnext _ _ Hl1 Hni) as (H1 & H2 & H3). cbn [c_hint compact_at cycle_check with_hint].
    specialize (IH t1 (f_ty f) (Checker (compact_at c) (or_label (c_hint c) (field_label f)) ((seen ++ [id]) ++ [f_ty f])) (acc ++ own_info t) (seen ++ [id])
      Hl1 eq_refl Hni H1 H2 H3). cbn [compact_at] in IH.
    unfold with_hint. cbn [c_hint compact_at cycle_check].
    destruct (fst (fst _)) as [hu|[x|]| |]; try contradiction; eapply LE_field; eauto.
  - cbn [fst hu_id hu_ty]. apply LE_end; auto.
Qed.

Lemma husk_leads id :
  match fst (fst (husk_type (@portable unit types) id checker_new 0 tt)) with
  | Ok hu => leads types [] None id (inl (hu_id hu, hu_ty hu))
  | Err (RInternal x) => leads types [] None id (inr x)
  | _ => False
  end.
Proof.
  unfold husk_type, bind at 1, lift_int at 1, map_err at 1, check_id. cbn [cycle_check checker_new existsb lift].
  unfold ret at 1. unfold bind at 1. pose proof (resolve_total (E := unit) types id 0 tt) as Hr.
  destruct (lookup types id) as [t|] eqn:Hl; rewrite Hr.
  2: { cbn. apply LE_unresolved; auto. }
  cbn [cycle_check app]. apply (husk_leads_loop (husk_fuel (@portable unit types)) t id (Checker None HNone [id]) [] []); auto.
  - constructor; [auto|constructor].
  - constructor; [eapply lookup_lt, Hl|constructor].
  - unfold husk_fuel. cbn [reg_bound portable app List.length]. lia.
Qed.

Lemma elements_unique d r1 r2 : elements types d r1 -> elements types d r2 -> r1 = r2.
Proof.
  intros H1 H2. destruct H1; inversion H2; subst; try congruence;
    try (exfalso; match goal with A : forall i, _ <> TSequence i |- _ => eapply A; first [eassumption|reflexivity] end);
    try (exfalso; match goal with A : forall f, _ <> TComposite [f] |- _ => eapply A; first [eassumption|reflexivity] end).
Qed.

Lemma v14_unique id r1 r2 : v14_answer types id r1 -> v14_answer types id r2 -> r1 = r2.
Proof.
  intros H1 H2. destruct H1; destruct H2;
    match goal with A : leads types [] None id _, B : leads types [] None id _ |- _ => pose proof (leads_unique _ _ _ _ A _ B) as HL end;
    try discriminate; try congruence; injection HL; intros; subst;
    match goal with A : elements types ?d _, B : elements types ?d _ |- _ => pose proof (elements_unique _ _ _ A B) as HE end;
    try discriminate; try congruence; injection HE; intros; subst; try congruence; try contradiction;
    match goal with A : lookup types ?i = Some ?t, B : lookup types ?i = Some ?t' |- _ => assert (t = t') by congruence; subst t' end;
    try contradiction; eapply params_unique; eassumption.
Qed.
End Types.

Theorem v14_ok m : v14_answer (v14_types m) (v14_extrinsic_ty m) (v14_type_params m).
Proof.
  unfold v14_type_params. pose proof (husk_leads (v14_types m) (v14_extrinsic_ty m)) as Hh.
  destruct (fst (fst (husk_type _ _ _ _ _))) as [hu|[x|]| |]; try contradiction.
  2: { apply V14_unresolved, Hh. }
  assert (Hfin : forall i, elements (v14_types m) (t_def (hu_ty hu)) (inl (Some i)) ->
    v14_answer (v14_types m) (v14_extrinsic_ty m)
      (match resolve_pure (v14_types m) i with
       | inl et => match t_def et with
                   | TPrimitive (PrU U8) => process_params (t_params (hu_ty hu))
                   | _ => inr (UnexpectedExtrinsicType (hu_id hu))
                   end
       | inr e => inr e
       end)).
  { intros i He. unfold resolve_pure. destruct (lookup (v14_types m) i) as [it|] eqn:Hl.
    2: { eapply V14_unresolved_element; eauto. }
    assert (Hno : ~ is_u8 it -> v14_answer (v14_types m) (v14_extrinsic_ty m) (inr (UnexpectedExtrinsicType (hu_id hu)))).
    { intros Hu. eapply V14_not_u8; eauto. }
    destruct (t_def it) as [| | | | |[| | |[]| | | ]| |] eqn:Hd; try (apply Hno; unfold is_u8; congruence).
    eapply V14_params; eauto. apply params_ok. }
  assert (Hno : elements (v14_types m) (t_def (hu_ty hu)) (inl None) ->
    v14_answer (v14_types m) (v14_extrinsic_ty m) (inr (UnexpectedExtrinsicType (hu_id hu)))).
  { intros He. eapply V14_not_vector; eauto. }
  destruct (t_def (hu_ty hu)) as [[|f [|f2 fs]]| | | | | | |] eqn:Hd; try (apply Hno; apply EL_other; intros; congruence).
  - unfold resolve_pure at 1. destruct (lookup (v14_types m) (f_ty f)) as [ft|] eqn:Hl.
    2: { eapply V14_unresolved_field; eauto. rewrite Hd. apply EL_unresolved, Hl. }
    destruct (t_def ft) eqn:Hft; try (apply Hno; eapply EL_struct_other; [eassumption|intros; congruence]).
    apply Hfin. eapply EL_struct; eauto.
  - apply Hfin. constructor.
Qed.

(** ** Runtime version *)

Lemma system_find pallets :
  match find (fun p => String.eqb (pl_name p) "System") pallets with
  | Some p => system_pallet pallets p
  | None => ~ In "System" (map pl_name pallets)
  end.
Proof.
  induction pallets as [|a l IH]; cbn [find]; [intros []|].
  destruct (String.eqb_spec (pl_name a) "System") as [He|He].
  - exists [], l. split; [reflexivity|]. split; [exact He|]. intros [].
  - destruct (find _ l).
    + destruct IH as (pre & post & -> & H1 & H2). exists (a :: pre), post. split; [reflexivity|]. split; [exact H1|].
      intros [H|H]; auto.
    + intros [H|H]; auto.
Qed.

Lemma constant_last (l : list constant) :
  match fold_left (fun acc c => if String.eqb (k_name c) "Version" then Some (k_value c, k_ty c) else acc) l None with
  | Some (value, id) => exists pre post, l = pre ++ Constant "Version" value id :: post /\ ~ In "Version" (map k_name post)
  | None => ~ In "Version" (map k_name l)
  end.
Proof.
  destruct (last_of (fun c => String.eqb (k_name c) "Version") (fun c => Some (k_value c, k_ty c)) l None) as [(pre & [k v i] & post & -> & H1 & H2 & H3)|[H1 H2]].
  - rewrite H3. cbn [k_name k_value k_ty] in *. apply String.eqb_eq in H1. subst k. exists pre, post. split; [reflexivity|]. apply not_in_names, H2.
  - rewrite H2. apply not_in_names, H1.
Qed.

Lemma version_fields_spec l : forall pre v n,
  spec_versions pre = match v with Some x => [x] | None => [] end ->
  spec_names pre = match n with Some x => [x] | None => [] end ->
  match version_fields l (option_map dec_string v) n with
  | inl (v', n') => exists v1, v' = option_map dec_string v1 /\
      spec_versions (pre ++ l) = match v1 with Some x => [x] | None => [] end /\
      spec_names (pre ++ l) = match n' with Some x => [x] | None => [] end
  | inr e => fields_answer (pre ++ l) (inr e)
  end.
Proof.
  induction l as [|f l IH]; intros pre v n Hv Hn; cbn [version_fields].
  { rewrite app_nil_r. eauto. }
  assert (Hlv : (List.length (spec_versions pre) <= 1)%nat) by (rewrite Hv; destruct v; cbn; lia).
  assert (Hln : (List.length (spec_names pre) <= 1)%nat) by (rewrite Hn; destruct n; cbn; lia).
  assert (Hv' : forall v1, spec_versions pre ++ version_of f = v1 -> spec_versions (pre ++ [f]) = v1).
  { intros v1 <-. unfold spec_versions. rewrite flat_map_app. cbn [flat_map]. rewrite app_nil_r. reflexivity. }
  assert (Hn' : forall v1, spec_names pre ++ name_of f = v1 -> spec_names (pre ++ [f]) = v1).
  { intros v1 <-. unfold spec_names. rewrite flat_map_app. cbn [flat_map]. rewrite app_nil_r. reflexivity. }
  replace (pre ++ f :: l) with ((pre ++ [f]) ++ l) by (rewrite <- app_assoc; reflexivity).
  assert (Hskip : version_of f = [] -> name_of f = [] ->
    match version_fields l (option_map dec_string v) n with
    | inl (v', n') => exists v1, v' = option_map dec_string v1 /\
      spec_versions ((pre ++ [f]) ++ l) = match v1 with Some x => [x] | None => [] end /\
      spec_names ((pre ++ [f]) ++ l) = match n' with Some x => [x] | None => [] end
    | inr e => fields_answer ((pre ++ [f]) ++ l) (inr e)
    end).
  { intros H1 H2. apply IH; [apply Hv'; rewrite H1, app_nil_r; exact Hv|apply Hn'; rewrite H2, app_nil_r; exact Hn]. }
  destruct (x_data (fd_data f)) eqn:Hx; try (apply Hskip; unfold version_of, name_of; rewrite Hx; reflexivity).
  - destruct specialty; try (apply Hskip; unfold version_of, name_of; rewrite Hx; reflexivity).
    destruct v as [v0|]; cbn [option_map].
    + eapply FA_version_twice with (pre := pre) (f := f) (post := l); [rewrite <- app_assoc; reflexivity| |exact Hln|].
      * rewrite Hv. reflexivity.
      * unfold version_of. rewrite Hx. reflexivity.
    + specialize (IH (pre ++ [f]) (Some value) n). cbn [option_map] in IH. apply IH.
      * apply Hv'. unfold version_of. rewrite Hv, Hx. reflexivity.
      * apply Hn'. unfold name_of. rewrite Hx, app_nil_r. exact Hn.
  - destruct specialty; try (apply Hskip; unfold version_of, name_of; rewrite Hx; reflexivity).
    destruct n as [n0|].
    + eapply FA_name_twice with (pre := pre) (f := f) (post := l); [rewrite <- app_assoc; reflexivity| |exact Hlv|].
      * rewrite Hn. reflexivity.
      * unfold name_of. rewrite Hx. reflexivity.
    + apply (IH (pre ++ [f]) v (Some text)).
      * apply Hv'. unfold version_of. rewrite Hx, app_nil_r. exact Hv.
      * apply Hn'. unfold name_of. rewrite Hn, Hx. reflexivity.
Qed.

Lemma fields_ok x : match x with
  | DComposite l => fields_answer l (spec_name_version_from_data x)
  | _ => spec_name_version_from_data x = inr UnexpectedRuntimeVersionFormat
  end.
Proof.
  destruct x; try reflexivity. cbn [spec_name_version_from_data].
  pose proof (version_fields_spec fields [] None None eq_refl eq_refl) as H. cbn [option_map app] in H.
  destruct (version_fields fields None None) as [[v' n']|e]; [|exact H].
  destruct H as (v1 & -> & H1 & H2). destruct v1 as [v|]; cbn [option_map].
  - destruct n' as [n|]; [apply FA_both; assumption|]. eapply FA_no_name; eassumption.
  - apply FA_no_version; [exact H1|]. rewrite H2. destruct n'; cbn; lia.
Qed.

Theorem version_ok types pallets : version_answer types pallets (spec_name_version_of types pallets).
Proof.
  unfold spec_name_version_of, version_constant. pose proof (system_find pallets) as Hs.
  destruct (find _ pallets) as [p|]; [|apply VA_no_system, Hs].
  pose proof (constant_last (pl_constants p)) as Hc.
  destruct (fold_left _ _ _) as [[value id]|]; [|eapply VA_no_constant; eassumption].
  change (fst (decode_all_as_type (slice_buffer value) (portable types) id tt)) with (decode_all types value id).
  pose proof (whole_blob types value id) as Hw.
  destruct (decode_all types value id) as [x|y| |] eqn:Hd.
  - pose proof (fields_ok (x_data x)) as Hf. destruct (x_data x) eqn:Hx;
      try (rewrite Hf; eapply VA_format; [exact Hs|exact Hc|exact Hd|intros ?; rewrite Hx; discriminate]).
    eapply VA_fields; eauto.
  - eapply VA_not_decodable; eauto.
  - exfalso. destruct (decode_at types value id 0) as [[x'|y'| |] q]; try congruence; try contradiction. destruct (Nat.eqb _ _); congruence.
  - exfalso. destruct (decode_at types value id 0) as [[x'|y'| |] q]; try congruence; try contradiction. destruct (Nat.eqb _ _); congruence.
Qed.

Lemma first_split {A} (f : A -> string) name pre pre' (x x' : A) post post' :
  pre ++ x :: post = pre' ++ x' :: post' -> f x = name -> f x' = name ->
  ~ In name (map f pre) -> ~ In name (map f pre') -> x = x'.
Proof.
  intros H Hx Hx' Hp Hp'. revert pre' H Hp'. induction pre as [|a pre IH]; intros [|a' pre'] H Hp'; cbn [app] in H.
  - injection H; auto.
  - exfalso. injection H as -> _. apply Hp'. left. exact Hx.
  - exfalso. injection H as <- _. apply Hp. left. exact Hx'.
  - injection H as -> H. apply (IH (fun h => Hp (or_intror h)) _ H (fun h => Hp' (or_intror h))).
Qed.

Lemma app_same_length {A} (a a' b b' : list A) : a ++ b = a' ++ b' -> List.length a = List.length a' -> a = a' /\ b = b'.
Proof.
  revert a'. induction a as [|x a IH]; intros [|x' a'] H Hl; try discriminate; [auto|].
  cbn [app] in H. injection H as -> H. injection Hl as Hl. destruct (IH _ H Hl) as [-> ->]. auto.
Qed.

(** At most one of the repetitions comes first. *)
Definition fine (l : list (fdata pdata)) : Prop :=
  (List.length (spec_versions l) <= 1)%nat /\ (List.length (spec_names l) <= 1)%nat.

Lemma fine_app a b : fine (a ++ b) -> fine a.
Proof. unfold fine, spec_versions, spec_names. rewrite !flat_map_app, !app_length. lia. Qed.

Lemma bad_split (pre pre' post post' : list (fdata pdata)) f f' :
  fine pre -> fine pre' -> ~ fine (pre ++ [f]) -> ~ fine (pre' ++ [f']) ->
  pre ++ f :: post = pre' ++ f' :: post' -> pre = pre' /\ f = f'.
Proof.
  intros H1 H2 H3 H4 H. assert (Hl : List.length pre = List.length pre').
  { destruct (Nat.lt_trichotomy (List.length pre) (List.length pre')) as [Hlt|[He|Hlt]]; [|exact He|]; exfalso.
    - apply H3. apply (fine_app _ (skipn (S (List.length pre)) pre')).
      replace ((pre ++ [f]) ++ skipn (S (List.length pre)) pre') with pre'; [exact H2|].
      pose proof (f_equal (firstn (S (List.length pre))) H) as Hf.
      rewrite <- (firstn_skipn (S (List.length pre)) pre') at 1. f_equal.
      rewrite (firstn_app _ pre') in Hf. replace (S (List.length pre) - List.length pre')%nat with 0%nat in Hf by lia.
      rewrite firstn_O, app_nil_r in Hf. rewrite <- Hf.
      change (f :: post) with ([f] ++ post). rewrite app_assoc, firstn_app, app_length. cbn [List.length].
      replace (S (List.length pre) - (List.length pre + 1))%nat with 0%nat by lia. rewrite firstn_O, app_nil_r.
      rewrite firstn_all2; [reflexivity|]. rewrite app_length. cbn [List.length]. lia.
    - apply H4. apply (fine_app _ (skipn (S (List.length pre')) pre)).
      replace ((pre' ++ [f']) ++ skipn (S (List.length pre')) pre) with pre; [exact H1|].
      pose proof (f_equal (firstn (S (List.length pre'))) H) as Hf.
      rewrite <- (firstn_skipn (S (List.length pre')) pre) at 1. f_equal.
      rewrite (firstn_app _ pre) in Hf. replace (S (List.length pre') - List.length pre)%nat with 0%nat in Hf by lia.
      rewrite firstn_O, app_nil_r in Hf. rewrite Hf.
      change (f' :: post') with ([f'] ++ post'). rewrite app_assoc, firstn_app, app_length. cbn [List.length].
      replace (S (List.length pre') - (List.length pre' + 1))%nat with 0%nat by lia. rewrite firstn_O, app_nil_r.
      rewrite firstn_all2; [reflexivity|]. rewrite app_length. cbn [List.length]. lia. }
  apply app_same_length in H; [|exact Hl]. destruct H as [-> H]. injection H as -> _. auto.
Qed.

Lemma versions_snoc pre f : spec_versions (pre ++ [f]) = spec_versions pre ++ version_of f.
Proof. unfold spec_versions. rewrite flat_map_app. cbn [flat_map]. rewrite app_nil_r. reflexivity. Qed.
Lemma names_snoc pre f : spec_names (pre ++ [f]) = spec_names pre ++ name_of f.
Proof. unfold spec_names. rewrite flat_map_app. cbn [flat_map]. rewrite app_nil_r. reflexivity. Qed.

Lemma fields_unique l r1 r2 : fields_answer l r1 -> fields_answer l r2 -> r1 = r2.
Proof.
  assert (Hbv : forall pre f v, List.length (spec_versions pre) = 1%nat -> version_of f = [v] -> ~ fine (pre ++ [f])).
  { intros pre f v H1 H2 [H3 _]. rewrite versions_snoc, app_length, H2 in H3. cbn in H3. lia. }
  assert (Hbn : forall pre f v, List.length (spec_names pre) = 1%nat -> name_of f = [v] -> ~ fine (pre ++ [f])).
  { intros pre f v H1 H2 [_ H3]. rewrite names_snoc, app_length, H2 in H3. cbn in H3. lia. }
  assert (Hgood : forall l0 r, fields_answer l0 r -> fine l0 \/ exists pre f post, l0 = pre ++ f :: post /\ fine pre /\ ~ fine (pre ++ [f]) /\
     ((r = inr SpecVersionIdentifierTwice /\ exists v, version_of f = [v]) \/ (r = inr SpecNameIdentifierTwice /\ exists v, name_of f = [v]))).
  { intros l0 r H. destruct H as [v n Hv Hn|Hv Hn|v Hv Hn|pre f post v -> Hv Hn Hf|pre f post n -> Hn Hv Hf].
    - left. unfold fine. rewrite Hv, Hn. cbn. lia.
    - left. unfold fine. rewrite Hv. cbn. lia.
    - left. unfold fine. rewrite Hv, Hn. cbn. lia.
    - right. exists pre, f, post. split; [reflexivity|]. split; [unfold fine; lia|]. split; [eapply Hbv; eauto|]. left. eauto.
    - right. exists pre, f, post. split; [reflexivity|]. split; [unfold fine; lia|]. split; [eapply Hbn; eauto|]. right. eauto. }
  assert (Hx : forall f v n, version_of f = [v] -> name_of f = [n] -> False).
  { intros f v n. unfold version_of, name_of. destruct (x_data (fd_data f)); discriminate. }
  assert (Hnf : forall pre (f : fdata pdata) post, l = pre ++ f :: post -> ~ fine (pre ++ [f]) -> ~ fine l).
  { intros pre f post -> Hb Hg. apply Hb. apply (fine_app _ post). rewrite <- app_assoc. exact Hg. }
  intros H1 H2. pose proof (Hgood _ _ H1) as G1. pose proof (Hgood _ _ H2) as G2.
  destruct G1 as [G1|(p1 & f1 & q1 & E1 & F1 & B1 & C1)]; destruct G2 as [G2|(p2 & f2 & q2 & E2 & F2 & B2 & C2)].
  - destruct H1; destruct H2; try reflexivity; try congruence; exfalso; eapply Hnf; try eassumption; eauto.
  - exfalso. eapply Hnf; eassumption.
  - exfalso. eapply Hnf; eassumption.
  - rewrite E1 in E2. destruct (bad_split _ _ _ _ _ _ F1 F2 B1 B2 E2) as [-> ->].
    destruct C1 as [[-> [v1 V1]]|[-> [v1 V1]]]; destruct C2 as [[-> [v2 V2]]|[-> [v2 V2]]]; try reflexivity; exfalso; eauto.
Qed.

Lemma system_unique l p1 p2 : system_pallet l p1 -> system_pallet l p2 -> p1 = p2.
Proof.
  intros (a & b & H1 & N1 & I1) (a' & b' & H2 & N2 & I2). rewrite H1 in H2. exact (first_split pl_name "System" _ _ _ _ _ _ H2 N1 N2 I1 I2).
Qed.

Theorem version_unique types pallets r1 r2 :
  version_answer types pallets r1 -> version_answer types pallets r2 -> r1 = r2.
Proof.
  assert (Hsys : forall p, system_pallet pallets p -> ~ In "System" (map pl_name pallets) -> False).
  { intros p (a & b & -> & Hn & _) H. apply H. rewrite map_app. apply in_or_app. right. left. exact Hn. }
  assert (Hver : forall p v i, version_in p v i -> ~ In "Version" (map k_name (pl_constants p)) -> False).
  { intros p v i (a & b & Hp & _) H. apply H. rewrite Hp, map_app. apply in_or_app. right. left. reflexivity. }
  assert (Hvu : forall p v i v' i', version_in p v i -> version_in p v' i' -> v = v' /\ i = i').
  { intros p v i v' i' (a & b & Hp & N1) (a' & b' & Hp' & N2). rewrite Hp in Hp'.
    eapply (last_split k_name "Version") in Hp'; try reflexivity; auto. destruct Hp' as [Hp' _]. split; congruence. }
  intros H1 H2. destruct H1; destruct H2; try reflexivity; try (exfalso; eapply Hsys; eassumption);
    match goal with A : system_pallet pallets ?p, B : system_pallet pallets ?q |- _ => pose proof (system_unique _ _ _ A B); subst q end;
    try (exfalso; eapply Hver; eassumption);
    match goal with A : version_in ?p _ _, B : version_in ?p _ _ |- _ => destruct (Hvu _ _ _ _ _ A B); subst end;
    try congruence.
  all: match goal with A : decode_all _ _ _ = Ok ?x, B : decode_all _ _ _ = Ok ?y |- _ => assert (x = y) by congruence; subst y; clear B end.
  all: try (match goal with A : forall l, x_data ?x <> DComposite l, B : x_data ?x = DComposite ?l |- _ => exfalso; exact (A l B) end).
  match goal with A : x_data ?x = DComposite ?l, B : x_data ?x = DComposite ?l' |- _ => assert (l = l') by congruence; subst l' end.
  eapply fields_unique; eassumption.
Qed.
