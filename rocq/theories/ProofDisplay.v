(** Proofs for C74. *)
From Coq Require Import Lia.
From Verif Require Import Base Compact Types Decode Sign Balance Cards Spec SpecBalance SpecCards SpecSize SpecDisplay
  ProofBase ProofBalance ProofCards.
Local Open Scope string_scope.
Local Open Scope list_scope.

(** ** Formats *)

Lemma f2_app {A B} (R : A -> B -> Prop) a b c d : Forall2 R a b -> Forall2 R c d -> Forall2 R (a ++ c) (b ++ d).
Proof. intros H1 H2. apply Forall2_app; assumption. Qed.

Lemma f2_refl {A} (R : A -> A -> Prop) l : (forall x, R x x) -> Forall2 R l l.
Proof. intros H. induction l; constructor; auto. Qed.

Section Generic.
Variable base58 : fixed_kind -> bytes -> N -> string.
Variable identicon : bytes -> bytes.
Variables s1 s2 : short_specs.
Variables n1 n2 : string.

Notation ref := (reformatted base58 identicon s1 s2 n1 n2).
Notation place := (same_place base58 identicon s1 s2 n1 n2).
Notation card1 := (card base58 identicon s1 n1).
Notation card2 := (card base58 identicon s2 n2).

Lemma ref_mono f1 f2 g a b : ref g g a b -> ref f1 f2 a b.
Proof. destruct 1; try (econstructor; eassumption). all: congruence. Qed.

Lemma place_mono f1 f2 g a b : place g g a b -> place f1 f2 a b.
Proof. intros (H1 & H2 & H3). repeat split; auto. apply (ref_mono _ _ _ _ _ H3). Qed.

Lemma place_refl f1 f2 c : place f1 f2 c c.
Proof. repeat split. apply R_same. Qed.

Lemma ref_specialty f1 f2 w v s :
  ref f1 f2 (specialty_card s1 n1 w v s f1) (specialty_card s2 n2 w v s f2).
Proof.
  destruct s; cbn [specialty_card]; try apply R_same.
  - destruct f1, f2.
    + eapply R_balance; [apply units_ok|apply units_ok|intros -> ->; reflexivity].
    + eapply R_less; [reflexivity|reflexivity|apply units_ok|apply dec_decimal].
    + eapply R_more; [reflexivity|reflexivity|apply units_ok|apply dec_decimal].
    + apply R_same.
  - eapply R_tip; [apply units_ok|apply units_ok|intros -> ->; reflexivity].
  - apply R_chain.
Qed.

Lemma ref_fixed f1 f2 k b : ref f1 f2 (fixed_card base58 identicon s1 k b) (fixed_card base58 identicon s2 k b).
Proof. destruct k; cbn [fixed_card]; try apply R_same; apply R_address. Qed.

Definition fine (d : pdata) : Prop := forall inf n f1 f2, Forall2 (place f1 f2) (card1 d inf n f1) (card2 d inf n f2).

Lemma fine_field_set fs : Forall (fun f : fdata pdata => fine (x_data (fd_data f))) fs ->
  forall i n f1 f2, Forall2 (place f1 f2) (card_field_set card1 i fs n f1) (card_field_set card2 i fs n f2).
Proof.
  induction 1 as [|f r Hf Hr IH]; intros i n f1 f2; cbn [card_field_set]; [constructor|].
  constructor; [apply place_refl|]. apply f2_app; [apply Hf|apply IH].
Qed.

Lemma fine_variant_fields fs : Forall (fun f : fdata pdata => fine (x_data (fd_data f))) fs ->
  forall n f1 f2, Forall2 (place f1 f2) (card_variant_fields card1 fs n f1) (card_variant_fields card2 fs n f2).
Proof.
  intros H n f1 f2. destruct fs as [|f [|g r] ].
  - apply fine_field_set. exact H.
  - unfold card_variant_fields. destruct (fd_name f); [apply fine_field_set; exact H|].
    inversion H; subst. unfold card_unnamed_single_field. auto.
  - apply (fine_field_set (f :: g :: r)). exact H.
Qed.

Lemma fine_pallet c it : Forall (fun f : fdata pdata => fine (x_data (fd_data f))) (ps_fields c) ->
  forall n f1 f2, Forall2 (place f1 f2) (card_pallet_specific card1 c n it) (card_pallet_specific card2 c n it).
Proof.
  intros H n f1 f2. unfold card_pallet_specific. constructor; [apply place_refl|]. constructor; [apply place_refl|].
  pose proof (fine_variant_fields _ H (n + 2) (is_balance_display c) (is_balance_display c)) as G.
  induction G as [|a b l m Ha Hl IH]; constructor; [|exact IH]. apply (place_mono _ _ _ _ _ Ha).
Qed.

Lemma fine_all d : fine d.
Proof.
  induction d as [d L|fs H|v H|c H|c H|l H|i s|i l H] using pdata_ind'; intros inf n f1 f2.
  - destruct d; try contradiction L; cbn [card]; try (apply f2_refl; intros; apply place_refl).
    + constructor; [|constructor]. repeat split. apply ref_fixed.
    + constructor; [|constructor]. repeat split. apply ref_specialty.
  - cbn [card]. destruct fs as [|f [|g r] ]; [constructor| |].
    + destruct (fd_name f).
      * constructor; [apply place_refl|]. apply fine_field_set. exact H.
      * inversion H; subst. unfold card_unnamed_single_field. auto.
    + constructor; [apply place_refl|]. apply fine_field_set. exact H.
  - cbn [card]. constructor; [apply place_refl|]. constructor; [apply place_refl|]. apply fine_variant_fields. exact H.
  - cbn [card]. apply fine_pallet. exact H.
  - cbn [card]. apply fine_pallet. exact H.
  - cbn [card]. destruct l as [|x r]; [constructor|]. constructor; [apply place_refl|].
    remember (x :: r) as l eqn:E. clear E. induction H as [|y l Hy Hl IH]; cbn [card_tuple]; [constructor|].
    apply f2_app; [apply Hy|exact IH].
  - cbn [card]. apply f2_refl. intros; apply place_refl.
  - cbn [card]. constructor; [apply place_refl|].
    induction H as [|y l Hy Hl IH]; cbn [card_elements]; [constructor|].
    apply f2_app; [apply Hy|exact IH].
Qed.

Lemma fine_extensions l : Forall2 (place true true) (card_extensions base58 identicon s1 n1 l)
  (card_extensions base58 identicon s2 n2 l).
Proof.
  unfold card_extensions.
  assert (G : forall a b, Forall2 (place true true) a b ->
    Forall2 (place true true)
      (fold_left (fun acc x => let t := card_ext base58 identicon s1 n1 x 0 true in match t with [] => acc | _ => acc ++ t end) l a)
      (fold_left (fun acc x => let t := card_ext base58 identicon s2 n2 x 0 true in match t with [] => acc | _ => acc ++ t end) l b)).
  { induction l as [|x r IH]; intros a b H; cbn [fold_left]; [exact H|]. apply IH.
    pose proof (fine_all (x_data x) (map flatten (x_info x)) 0 true true) as G.
    cbv zeta. unfold card_ext, card_ext_with. inversion G; subst; [exact H|].
    apply f2_app; [exact H|]. constructor; assumption. }
  apply G. constructor.
Qed.

Lemma ref_differ f1 f2 a b : ref f1 f2 a b -> a <> b -> differ_only s1 s2 n1 n2 f1 f2 a b.
Proof.
  destruct 1; intros Hn; cbn [differ_only]; try congruence; auto.
  - destruct (N.eq_dec (decimals s1) (decimals s2)); [|auto].
    destruct (string_dec (unit_name s1) (unit_name s2)); [|auto]. exfalso. apply Hn. f_equal. auto.
  - destruct (N.eq_dec (decimals s1) (decimals s2)); [|auto].
    destruct (string_dec (unit_name s1) (unit_name s2)); [|auto]. exfalso. apply Hn. f_equal. auto.
  - split; [|auto]. intros E. apply Hn. rewrite E. reflexivity.
  - split; [|auto]. intros E. apply Hn. rewrite E. reflexivity.
Qed.
End Generic.

Lemma f2_nth {A B} (R : A -> B -> Prop) l m : Forall2 R l m -> forall k a b,
  nth_error l k = Some a -> nth_error m k = Some b -> R a b.
Proof.
  induction 1 as [|x y l m Hx H IH]; intros [|k] a b Ha Hb; try discriminate.
  - injection Ha as <-. injection Hb as <-. exact Hx.
  - eapply IH; eassumption.
Qed.

(** ** Number of cards *)

Section Count.
Variable base58 : fixed_kind -> bytes -> N -> string.
Variable identicon : bytes -> bytes.
Variable specs : short_specs.
Variable name : string.
Notation card := (card base58 identicon specs name).

Definition few (d : pdata) : Prop := forall inf n db, S (List.length (card d inf n db)) <= 3 * size d.

Lemma few_field_set fs : Forall (fun f : fdata pdata => few (x_data (fd_data f))) fs ->
  forall i n db, List.length (card_field_set card i fs n db) <=
    3 * list_sum (map (fun f => size (x_data (fd_data f))) fs).
Proof.
  induction 1 as [|f r Hf Hr IH]; intros i n db; cbn [card_field_set List.length map list_sum fold_right]; [lia|].
  rewrite app_length. specialize (IH (i + 1) n db). unfold card_ext_with.
  specialize (Hf (map flatten (x_info (fd_data f))) (n + 1) db). unfold list_sum in IH. lia.
Qed.

Lemma few_variant_fields fs : Forall (fun f : fdata pdata => few (x_data (fd_data f))) fs ->
  forall n db, List.length (card_variant_fields card fs n db) <=
    3 * list_sum (map (fun f => size (x_data (fd_data f))) fs).
Proof.
  intros H n db. destruct fs as [|f [|g r] ].
  - apply few_field_set. exact H.
  - unfold card_variant_fields. destruct (fd_name f); [apply few_field_set; exact H|].
    inversion H as [|? ? Hf _]; subst. unfold card_unnamed_single_field. cbn [map list_sum fold_right].
    match goal with |- (List.length (card ?d ?i n db) <= _)%nat => pose proof (Hf i n db) as G end. lia.
  - apply (few_field_set (f :: g :: r)). exact H.
Qed.

Lemma size_pos d : 1 <= size d.
Proof. destruct d; cbn [size]; try lia. destruct s; lia. Qed.

Lemma few_all d : few d.
Proof.
  induction d as [d L|fs H|v H|c H|c H|l H|i s|i l H] using pdata_ind'; intros inf n db.
  - destruct d; try contradiction L; cbn [Cards.card List.length size]; try lia. destruct specialty; cbn [List.length]; lia.
  - cbn [Cards.card size]. destruct fs as [|f [|g r] ]; [cbn; lia| |].
    + destruct (fd_name f).
      * cbn [List.length]. pose proof (few_field_set _ H 0 (n + 1) db). lia.
      * inversion H as [|? ? Hf _]; subst. unfold card_unnamed_single_field. cbn [map list_sum fold_right].
        match goal with |- (S (List.length (card ?d ?i n db)) <= _)%nat => pose proof (Hf i n db) as G end. lia.
    + cbn [List.length]. pose proof (few_field_set _ H 0 (n + 1) db). lia.
  - cbn [Cards.card size List.length]. pose proof (few_variant_fields _ H (n + 2) db). lia.
  - cbn [Cards.card size]. unfold card_pallet_specific. cbn [List.length].
    pose proof (few_variant_fields _ H (n + 2) (is_balance_display c)). lia.
  - cbn [Cards.card size]. unfold card_pallet_specific. cbn [List.length].
    pose proof (few_variant_fields _ H (n + 2) (is_balance_display c)). lia.
  - assert (G : forall k, List.length (card_tuple card l k db) <= 3 * list_sum (map (fun x => size (x_data x)) l)).
    { intros k. induction H as [|y l Hy Hl IH]; cbn [card_tuple List.length map list_sum fold_right]; [lia|].
      rewrite app_length. unfold card_ext_with. specialize (Hy (map flatten (x_info y)) k db). unfold list_sum in IH. lia. }
    cbn [Cards.card size]. destruct l as [|x r]; [cbn; lia|]. cbn [List.length]. specialize (G (n + 1)). lia.
  - cbn [Cards.card size]. destruct s as [[] l|l inner]; cbn [card_sequence List.length]; rewrite ?map_length; try lia.
    assert (G : List.length l <= list_sum (map (fun b => S (List.length b)) l)).
    { induction l as [|b l IH]; cbn [List.length map list_sum fold_right]; [lia|]. unfold list_sum in IH. lia. }
    lia.
  - assert (G : forall k, List.length (card_elements card l k db) <= 3 * list_sum (map size l)).
    { intros k. induction H as [|y l Hy Hl IH]; cbn [card_elements List.length map list_sum fold_right]; [lia|].
      rewrite app_length. specialize (Hy [] k db). unfold list_sum in IH. lia. }
    cbn [Cards.card size List.length]. specialize (G (n + 1)). lia.
Qed.

(** ** The type information given is that of the first card *)

Definition top (d : pdata) : Prop := forall i1 i2 n db,
  map ec_card (card d i1 n db) = map ec_card (card d i2 n db) /\ tl (card d i1 n db) = tl (card d i2 n db).

Lemma top_all d : top d.
Proof.
  induction d as [d L|fs H|v H|c H|c H|l H|i s|i l H] using pdata_ind'; intros i1 i2 n db.
  - destruct d; try contradiction L; try (split; reflexivity). destruct specialty; split; reflexivity.
  - cbn [Cards.card]. destruct fs as [|f [|g r] ]; [split; reflexivity| |split; reflexivity].
    destruct (fd_name f); [split; reflexivity|]. inversion H as [|? ? Hf _]; subst.
    unfold card_unnamed_single_field. apply Hf.
  - split; reflexivity.
  - split; reflexivity.
  - split; reflexivity.
  - cbn [Cards.card]. destruct l; split; reflexivity.
  - cbn [Cards.card]. destruct s as [[] l|l inner]; split; reflexivity.
  - split; reflexivity.
Qed.

(** ** Nested values *)

Lemma field_set_has fs f : In f fs -> forall i n db, exists pre post inf,
  card_field_set card i fs n db = pre ++ card (x_data (fd_data f)) inf (n + 1) db ++ post.
Proof.
  induction fs as [|g r IH]; intros [] i n db.
  - subst g. cbn [card_field_set]. eexists [_], _, _. cbn [app]. reflexivity.
  - destruct (IH H (i + 1) n db) as (pre & post & inf & E). cbn [card_field_set]. rewrite E.
    eexists (_ :: _ ++ pre), post, inf. cbn [app]. rewrite <- app_assoc. reflexivity.
Qed.

Lemma variant_fields_have fs f : In f fs -> forall n db, exists pre post inf k,
  card_variant_fields card fs n db = pre ++ card (x_data (fd_data f)) inf (n + k) db ++ post.
Proof.
  intros H n db.
  assert (G : exists pre post inf k, card_field_set card 0 fs n db = pre ++ card (x_data (fd_data f)) inf (n + k) db ++ post).
  { destruct (field_set_has fs f H 0 n db) as (pre & post & inf & E). eauto. }
  destruct fs as [|g [|h r] ]; [contradiction H| |exact G].
  unfold card_variant_fields. destruct (fd_name g); [exact G|]. destruct H as [->|[] ].
  unfold card_unnamed_single_field. eexists [], [], _, 0. rewrite Nat.add_0_r, app_nil_r. reflexivity.
Qed.

Lemma is_units c : is_balance_display c = unit_pallet (ps_pallet_name c).
Proof.
  unfold is_balance_display, unit_pallet, str_in, PALLETS_BALANCE_VALID. cbn [existsb]. rewrite orb_false_r. reflexivity.
Qed.

Lemma part_has u d p : In p (parts_in d) -> forall inf n, exists pre post inf' k,
  card d inf n u = pre ++ card p inf' (n + k) (units_in u d) ++ post.
Proof.
  intros H inf n.
  assert (Hf : forall fs, In p (map (fun f => x_data (fd_data f)) fs) -> exists f, In f fs /\ p = x_data (fd_data f)).
  { intros fs G. apply in_map_iff in G as (f & <- & G). eauto. }
  destruct d; cbn [parts_in fields_in map In] in H; try contradiction H; cbn [units_in].
  - destruct (Hf _ H) as (f & Hi & ->). cbn [Cards.card].
    destruct fields as [|g [|h r] ]; [contradiction Hi| |].
    + destruct (fd_name g).
      * destruct (field_set_has _ f Hi 0 (n + 1) u) as (pre & post & inf' & E). rewrite E.
        eexists (_ :: pre), post, inf', 2. cbn [app]. rewrite <- Nat.add_assoc. reflexivity.
      * destruct Hi as [->|[] ]. unfold card_unnamed_single_field. eexists [], [], _, 0. rewrite Nat.add_0_r, app_nil_r. reflexivity.
    + destruct (field_set_has _ f Hi 0 (n + 1) u) as (pre & post & inf' & E). rewrite E.
      eexists (_ :: pre), post, inf', 2. cbn [app]. rewrite <- Nat.add_assoc. reflexivity.
  - destruct (Hf _ H) as (f & Hi & ->). cbn [Cards.card].
    destruct (variant_fields_have _ f Hi (n + 2) u) as (pre & post & inf' & k & E). rewrite E.
    eexists (_ :: _ :: pre), post, inf', (2 + k). cbn [app]. rewrite Nat.add_assoc. reflexivity.
  - destruct (Hf _ H) as (f & Hi & ->). cbn [Cards.card]. unfold card_pallet_specific.
    destruct (variant_fields_have _ f Hi (n + 2) (is_balance_display c)) as (pre & post & inf' & k & E). rewrite E.
    rewrite is_units. eexists (_ :: _ :: pre), post, inf', (2 + k). cbn [app]. rewrite Nat.add_assoc. reflexivity.
  - destruct (Hf _ H) as (f & Hi & ->). cbn [Cards.card]. unfold card_pallet_specific.
    destruct (variant_fields_have _ f Hi (n + 2) (is_balance_display c)) as (pre & post & inf' & k & E). rewrite E.
    rewrite is_units. eexists (_ :: _ :: pre), post, inf', (2 + k). cbn [app]. rewrite Nat.add_assoc. reflexivity.
  - apply in_map_iff in H as (x & <- & Hx).
    assert (G : forall m, exists pre post inf', card_tuple card l m u = pre ++ card (x_data x) inf' m u ++ post).
    { intros m. clear inf n. induction l as [|y r IH]; [contradiction Hx|]. cbn [card_tuple]. destruct Hx as [->|Hx].
      - eexists [], _, _. reflexivity.
      - destruct (IH Hx) as (pre & post & inf' & E). rewrite E. eexists (_ ++ pre), post, inf'. rewrite <- app_assoc. reflexivity. }
    cbn [Cards.card]. destruct l as [|y r]; [contradiction Hx|]. destruct (G (n + 1)) as (pre & post & inf' & E). rewrite E.
    eexists (_ :: pre), post, inf', 1. reflexivity.
  - assert (G : forall m, exists pre post inf', card_elements card l m u = pre ++ card p inf' m u ++ post).
    { intros m. clear inf n. induction l as [|y r IH]; [contradiction H|]. cbn [card_elements]. destruct H as [->|H].
      - eexists [], _, _. reflexivity.
      - destruct (IH H) as (pre & post & inf' & E). rewrite E. eexists (_ ++ pre), post, inf'. rewrite <- app_assoc. reflexivity. }
    cbn [Cards.card]. destruct (G (n + 1)) as (pre & post & inf' & E). rewrite E.
    eexists (_ :: pre), post, inf', 1. reflexivity.
Qed.

Lemma inside_has u d w q : inside u d w q -> forall inf n, exists pre post inf' k,
  card d inf n u = pre ++ card q inf' (n + k) w ++ post.
Proof.
  induction 1 as [u d|u d p w q Hp _ IH]; intros inf n.
  - exists [], [], inf, 0. rewrite Nat.add_0_r, app_nil_r. reflexivity.
  - destruct (part_has u d p Hp inf n) as (pre & post & inf' & k & E).
    destruct (IH inf' (n + k)) as (pre' & post' & inf2 & k' & E'). rewrite E, E'.
    exists (pre ++ pre'), (post' ++ post), inf2, (k + k'). rewrite <- !app_assoc, Nat.add_assoc. reflexivity.
Qed.
End Count.
