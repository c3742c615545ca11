(** Particular kinds of types: C15-C20. *)
From Coq Require Import Lia ZifyBool ZifyNat ZifyN.
From Verif Require Import Base Compact Types Indicators Decode Spec SpecKinds Api ProofBase ProofCompact ProofUtf8 ProofLeaf ProofRead
  ProofTables ProofPeel ProofSpec ProofRel ProofMain SpecSource ProofCor.
Local Open Scope list_scope.

Section Kinds.
Variable types : list ty.
Local Notation enc := (enc types).
Local Notation view := (view types).
Local Notation lookup := (lookup types).

(** *** C15 *)

Lemma enc_compactable v : forall id bs, enc true id v = Some bs ->
  compactable types id /\ (bs = [] \/ exists n, bs = compact_enc n).
Proof.
  induction v as [n|z|b|l|vs IH|vs IH|i vs IH| |vs IH|vs IH|v IH|n l|l|e|i l|i j vs IH] using value_ind';
    intros id bs He; destruct (enc_lookup _ _ _ _ _ He) as (t & Hl);
    cbn [Spec.enc] in He; rewrite Hl in He; cbn [negb andb guard] in He;
    try rewrite Forall_forall in IH.
  - destruct (classify t) eqn:Hc; destruct (def_of t) as [[| | | | |[]| |]|] eqn:Hd; try discriminate;
      apply guard_ok in He; destruct He as [_ ->];
      (split; [|right; eauto]); try (eapply cp_per; eauto; fail); eapply cp_uint; eauto.
  - destruct (def_of t) as [[| | | | |[]| |]|]; discriminate.
  - destruct (def_of t) as [[| | | | |[]| |]|]; discriminate.
  - destruct (def_of t) as [[| | | | |[]| |]|]; discriminate.
  - destruct (def_of t) as [[fs| | | | | | |]|] eqn:Hd; try discriminate.
    destruct fs as [|f [|]]; cbn [List.length Nat.leb] in He; try discriminate.
    + destruct vs; [|discriminate]. injection He as <-. split; [eapply cp_unit_struct; eauto|auto].
    + destruct vs as [|v [|]]; cbn [enc_list] in He; try discriminate.
      * destruct (enc true (f_ty f) v) as [a|] eqn:Ha; [|discriminate]. injection He as <-.
        destruct (IH v (or_introl eq_refl) _ _ Ha) as [Hc Hb]. rewrite app_nil_r.
        split; [eapply cp_struct; eauto|exact Hb].
      * destruct (enc true (f_ty f) v); discriminate.
  - destruct (def_of t) as [[| | | |ids| | |]|] eqn:Hd; try discriminate.
    destruct ids as [|i [|]]; cbn [List.length Nat.leb] in He; try discriminate.
    + destruct vs; [|discriminate]. injection He as <-. split; [eapply cp_unit; eauto|auto].
    + destruct vs as [|v [|]]; cbn [enc_list] in He; try discriminate.
      * destruct (enc true i v) as [a|] eqn:Ha; [|discriminate]. injection He as <-.
        destruct (IH v (or_introl eq_refl) _ _ Ha) as [Hc Hb]. rewrite app_nil_r.
        split; [eapply cp_tuple; eauto|exact Hb].
      * destruct (enc true i v); discriminate.
  - destruct (def_of t) as [[]|]; try discriminate. destruct (by_index _ _); [|discriminate].
    destruct (variant_sig types t _); [discriminate|]. destruct (pallet_items types t _); discriminate.
  - destruct (def_of t) as [[|[]| | | | | |]|]; discriminate.
  - destruct (def_of t) as [[]|]; discriminate.
  - destruct (def_of t) as [[]|]; discriminate.
  - destruct (def_of t) as [[]|]; discriminate.
  - destruct (def_of t) as [[]|]; try discriminate. destruct (bit_order_of types _); [|discriminate]; destruct (bit_store types _); discriminate.
  - destruct (classify t); discriminate.
  - destruct (classify t); discriminate.
  - destruct (def_of t) as [[]|]; try discriminate. destruct (by_index _ _); [|discriminate].
    destruct (variant_sig types t _); discriminate.
  - destruct (def_of t) as [[]|]; try discriminate. destruct (by_index _ _); [|discriminate].
    destruct (pallet_items types t _) as [[? ?]|]; try discriminate. destruct (by_index _ _); discriminate.
Qed.

Lemma enc_list_nth {A} (f : A -> value -> option bytes) : forall ids vs bs, enc_list f ids vs = Some bs ->
  forall i k u, nth_error ids i = Some k -> nth_error vs i = Some u -> exists b, f k u = Some b.
Proof.
  induction ids as [|a ids IH]; intros [|v vs] bs H i k u Hi Hu; try discriminate; [destruct i; discriminate|].
  cbn [enc_list] in H. destruct (f a v) eqn:Ha; [|discriminate].
  fold (enc_list f) in H. destruct (enc_list f ids vs) eqn:Hr; [|discriminate].
  destruct i as [|i]; cbn in Hi, Hu; [injection Hi as <-; injection Hu as <-; eauto|eapply IH; eauto].
Qed.

Lemma enc_all_in (f : value -> option bytes) : forall vs bs, enc_all f vs = Some bs ->
  forall u, In u vs -> exists b, f u = Some b.
Proof.
  induction vs as [|v vs IH]; intros bs H u Hu; [destruct Hu|].
  cbn [enc_all] in H. destruct (f v) eqn:Ha; [|discriminate].
  fold (enc_all f) in H. destruct (enc_all f vs) eqn:Hr; [|discriminate].
  destruct Hu as [->|Hu]; eauto.
Qed.

Lemma part_enc id v j w : part types id v j w -> forall cpt bs, enc cpt id v = Some bs ->
  exists cpt' bs', enc cpt' j w = Some bs'.
Proof.
  induction 1 as [id v|id t fs vs i f u j w Hl Hd Hf Hu _ IH|id t ids vs i k u j w Hl Hd Hf Hu _ IH|
    id t variants n var vs i f u j w Hl Hd Hn Hf Hu _ IH|
    id t variants n m var inner items item vs i f u j w Hl Hd Hn Hp Hm Hf Hu _ IH|
    id t el vs u j w Hl Hd Hu _ IH|id t n el vs u j w Hl Hd Hu _ IH|id t inner v j w Hl Hd _ IH];
    intros cpt bs He; [eauto| | | | | | |]; cbn [Spec.enc] in He; rewrite Hl, Hd in He.
  - destruct (cpt && _); [discriminate|]. destruct (enc_list_nth _ _ _ _ He _ _ _ Hf Hu) as (b0 & Hb0). eauto.
  - destruct (cpt && _); [discriminate|]. destruct (enc_list_nth _ _ _ _ He _ _ _ Hf Hu) as (b0 & Hb0). eauto.
  - rewrite Hn in He. destruct (variant_sig types t _); [discriminate|]. destruct (pallet_items types t _); [discriminate|].
    destruct (negb cpt && _); [|discriminate].
    destruct (enc_list _ _ _) eqn:Hx in He; [|discriminate].
    destruct (enc_list_nth _ _ _ _ Hx _ _ _ Hf Hu) as (b0 & Hb0). eauto.
  - rewrite Hn, Hp, Hm in He. destruct (negb cpt && _ && _); [|discriminate].
    destruct (enc_list _ _ _) eqn:Hx in He; [|discriminate].
    destruct (enc_list_nth _ _ _ _ Hx _ _ _ Hf Hu) as (b0 & Hb0). eauto.
  - cbv zeta in He. destruct (negb cpt && _); [|discriminate].
    destruct (enc_all _ _) eqn:Hx in He; [|discriminate].
    destruct (enc_all_in _ _ _ Hx _ Hu) as (b0 & Hb0). eauto.
  - destruct (negb cpt && _); [|discriminate].
    destruct (enc_all_in _ _ _ He _ Hu) as (b0 & Hb0). eauto.
  - destruct cpt; [discriminate|]. eauto.
Qed.

Lemma compacts_ok id v bs : enc false id v = Some bs -> forall j u t inner,
  part types id v j (VCompact u) -> lookup j = Some t -> def_of t = Some (TCompact inner) ->
  compactable types inner /\ exists cbs, enc true inner u = Some cbs /\ (cbs = [] \/ exists n, cbs = compact_enc n).
Proof.
  intros He j u t inner Hp Hl Hd. destruct (part_enc _ _ _ _ Hp _ _ He) as (cpt' & bs' & Hc).
  cbn [Spec.enc] in Hc. rewrite Hl, Hd in Hc. destruct cpt'; [discriminate|].
  destruct (enc_compactable _ _ _ Hc). eauto.
Qed.

Theorem compact_only data id pos x q : is_bytes data ->
  decode_at types data id pos = (Ok x, q) ->
  exists v, enc false id v = Some (slice data pos (q - pos)) /\
    view false HNone id v = Some (x_data x, x_info x) /\
    forall j u t inner, part types id v j (VCompact u) -> lookup j = Some t ->
      def_of t = Some (TCompact inner) ->
      compactable types inner /\
      exists cbs, enc true inner u = Some cbs /\ (cbs = [] \/ exists n, cbs = compact_enc n).
Proof.
  intros Hb H. destruct (only_what_is_there types data id pos x q Hb H) as (v & He & Hv & _).
  exists v. split; [exact He|]. split; [exact Hv|]. eapply compacts_ok; eauto.
Qed.

Theorem compact_other_error data id pos t inner : is_bytes data ->
  lookup id = Some t -> def_of t = Some (TCompact inner) -> ~ compactable types inner ->
  exists y q, decode_at types data id pos = (Err y, q).
Proof.
  intros Hb Hl Hd Hn. rewrite decode_at_hinted. apply hinted_not_ok. intros x q H.
  destruct (compact_only data id pos x q Hb H) as (v & He & _ & Hc).
  assert (Hv : exists u, v = VCompact u).
  { destruct v; cbn [Spec.enc] in He; rewrite Hl in He; rewrite ?Hd in He; try discriminate; eauto.
    - unfold def_of in Hd. destruct (classify t); discriminate.
    - unfold def_of in Hd. destruct (classify t); discriminate.
    - unfold def_of in Hd. destruct (classify t); discriminate. }
  destruct Hv as (u & ->). apply Hn. eapply Hc; eauto. apply part_self.
Qed.

(** *** C16 *)

Lemma by_index_first vs i v : by_index vs i = Some v <-> first_with vs i v.
Proof.
  unfold by_index, first_with. induction vs as [|a vs IH]; cbn [find].
  - split; [discriminate|]. intros (l1 & l2 & H & _). destruct l1; discriminate.
  - destruct (N.eqb_spec (v_index a) i) as [Ha|Ha].
    + split.
      * intros H; injection H as <-. exists [], vs. repeat split; auto.
      * intros ([|b l1] & l2 & H & Hi & Hn); injection H as <- ->; [reflexivity|].
        destruct (Hn a (or_introl eq_refl) Ha).
    + rewrite IH. split.
      * intros (l1 & l2 & -> & Hi & Hn). exists (a :: l1), l2. repeat split; auto.
        intros u [<-|Hu]; auto.
      * intros ([|b l1] & l2 & H & Hi & Hn); injection H as <- ->; [contradiction|].
        exists l1, l2. repeat split; auto. intros u Hu. apply Hn. right. exact Hu.
Qed.

Lemma by_index_none vs i : by_index vs i = None <-> none_with vs i.
Proof.
  unfold by_index, none_with. split.
  - intros H u Hu. pose proof (find_none _ _ H _ Hu) as Hf. cbv beta in Hf. lia.
  - intros H. induction vs as [|a vs IH]; [reflexivity|]. cbn [find].
    destruct (N.eqb_spec (v_index a) i) as [Ha|Ha]; [destruct (H a (or_introl eq_refl) Ha)|].
    apply IH. intros u Hu. apply H. right. exact Hu.
Qed.

Lemma view_list_map {A B C} (f : A -> value -> option B) (g : B -> C) (g' : A -> C) :
  (forall a v b, f a v = Some b -> g b = g' a) ->
  forall ids vs l, view_list f ids vs = Some l -> map g l = map g' ids.
Proof.
  intros Hg. induction ids as [|a ids IH]; intros [|v vs] l H; try discriminate; [injection H as <-; reflexivity|].
  cbn [view_list] in H. destruct (f a v) eqn:Ha; [|discriminate].
  fold (view_list f) in H. destruct (view_list f ids vs) eqn:Hr; [|discriminate]. injection H as <-.
  cbn [map]. f_equal; eauto.
Qed.

Definition shown_field (f : field) : option string * option string * string :=
  (f_name f, f_type_name f, docs_text (f_docs f)).
Definition got_field (f : fdata pdata) : option string * option string * string :=
  (fd_name f, fd_type_name f, fd_docs f).

Lemma fields_view_names h fs vs l : fields_view types h fs vs = Some l -> map got_field l = map shown_field fs.
Proof.
  unfold fields_view. apply view_list_map. intros f v b H.
  destruct (Spec.view types false _ _ _) as [x|]; [|discriminate]. injection H as <-. reflexivity.
Qed.

(** What an enum value looks like, by its first byte(s). *)
Theorem enum_by_index data id pos t variants b x q : is_bytes data ->
  lookup id = Some t -> def_of t = Some (TVariant variants) -> variants <> [] ->
  nth_error data pos = Some b ->
  decode_at types data id pos = (Ok x, q) ->
  exists var, first_with variants b var /\
  ((exists fs, x_data x = DVariant (VData (v_name var) (docs_text (v_docs var)) fs) /\
      map got_field fs = map shown_field (v_fields var)) \/
   (exists k l, classify t = SpMultiSig /\ variant_sig types t var = Some k /\ x_data x = DFixed k l) \/
   (exists inner items b2 item fs, pallet_items types t var = Some (inner, items) /\
      nth_error data (pos + 1) = Some b2 /\ first_with items b2 item /\
      map got_field fs = map shown_field (v_fields item) /\
      let d := PSData (Info (docs_text (t_docs inner)) (t_path inner)) (docs_text (v_docs item))
                 (v_name var) (v_name item) fs in
      x_data x = match classify t with SpItem ItEvent => DEvent d | _ => DCall d end)).
Proof.
  intros Hb Hl Hd Hne Hn H. rewrite decode_at_hinted in H. apply hinted_sound in H; [|exact Hb].
  destruct H as (v & bs & He & Hv & _ & Hh & _).
  assert (Hcl : forall k, classify t <> SpRaw k) by (intros k Hc; unfold def_of in Hd; rewrite Hc in Hd; discriminate).
  destruct v; cbn [Spec.enc] in He; rewrite Hl in He; rewrite ?Hd in He; try discriminate;
    try (unfold def_of in Hd; destruct (classify t); discriminate).
  - destruct (by_index variants i) as [var|] eqn:Hi; [|discriminate].
    destruct (variant_sig types t var) eqn:Hs, (pallet_items types t var) eqn:Hp; try discriminate.
    destruct (negb false && _); [|discriminate].
    destruct (enc_list _ _ _) as [r|]; [|discriminate]. cbn [option_map] in He. injection He as <-.
    apply has_cons in Hh. destruct Hh as [Hh _]. assert (b = i) by congruence. subst i.
    exists var. split; [apply by_index_first, Hi|]. left.
    rewrite (view_enum types false HNone id t variants b var l Hl Hd Hi) in Hv.
    destruct (fields_view types HNone (v_fields var) l) as [fs|] eqn:Hf; [|discriminate].
    injection Hv as <- _. exists fs. split; [reflexivity|]. eapply fields_view_names; eauto.
  - destruct variants; [destruct (Hne eq_refl)|discriminate].
  - destruct (by_index variants i) as [var|] eqn:Hi; [|discriminate].
    destruct (variant_sig types t var) as [k|] eqn:Hs; [|discriminate].
    apply guard_ok in He. destruct He as [_ ->].
    apply has_cons in Hh. destruct Hh as [Hh _]. assert (b = i) by congruence. subst i.
    exists var. split; [apply by_index_first, Hi|]. right. left.
    cbn [Spec.view] in Hv. rewrite Hl, Hd, Hi, Hs in Hv. injection Hv as <- _.
    exists k, l. split; [|split; [exact Hs|reflexivity]].
    unfold variant_sig in Hs. destruct (classify t); try discriminate. reflexivity.
  - destruct (by_index variants i) as [var|] eqn:Hi; [|discriminate].
    destruct (pallet_items types t var) as [[inner items]|] eqn:Hp; [|discriminate].
    destruct (by_index items j) as [item|] eqn:Hj; [|discriminate].
    destruct (negb false && _ && _); [|discriminate].
    destruct (enc_list _ _ _) as [r|]; [|discriminate]. cbn [option_map] in He. injection He as <-.
    apply has_cons in Hh. destruct Hh as [Hh Hh2]. apply has_cons in Hh2. destruct Hh2 as [Hh2 _].
    assert (b = i) by congruence. subst i.
    exists var. split; [apply by_index_first, Hi|]. right. right.
    rewrite (view_item types false HNone id t variants b j var inner items item l Hl Hd Hi Hp Hj) in Hv.
    destruct (fields_view types HNone (v_fields item) l) as [fs|] eqn:Hf; [|discriminate].
    injection Hv as Hx _. exists inner, items, j, item, fs. repeat split; auto.
    + apply by_index_first, Hj.
    + eapply fields_view_names; eauto.
Qed.
End Kinds.
