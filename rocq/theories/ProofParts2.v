(** C73: composed values and their parts. *)
From Coq Require Import Lia Relations.
From Verif Require Import Base Compact Types Indicators Decode Spec SpecSource SpecKinds SpecLabels SpecParts Api ProofBase ProofSim ProofTables ProofLabels ProofHint
  ProofRead ProofPeel ProofLeaf ProofSpec ProofRel ProofMain ProofCor ProofKinds ProofKinds2 ProofSafe2 ProofCompact ProofParts.
Local Open Scope list_scope.

Section Parts.
Variable types : list ty.
Variable data : bytes.
Local Notation buf := (@slice_buffer unit data).
Local Notation reg := (@portable unit types).
Local Notation dec := (decode_with_type buf reg).

(** One level of recursion. *)
Lemma decode_at_body id pos : decode_at types data id pos =
  (fst (fst (decode_body buf reg dec (Symbol id) propagated_new pos tt)),
   snd (fst (decode_body buf reg dec (Symbol id) propagated_new pos tt))) /\
  returns (fst (decode_at types data id pos)).
Proof.
  destruct (depth_bound buf reg (good_slice data) (good_portable types) id pos tt (S (decode_fuel buf reg))) as [Hr He].
  { unfold decode_fuel. lia. }
  cbn [decode] in He, Hr. unfold decode_at. fold dec in He, Hr. rewrite <- He.
  change (decode buf reg (decode_fuel buf reg)) with dec in *.
  destruct (decode_body buf reg dec (Symbol id) propagated_new pos tt) as [[o q] e]. cbn [fst snd] in *. auto.
Qed.

(** A part in its place, and on its own. *)
Lemma part_alone id h s p : 
  (exists x, fst (fst (dec (Symbol id) (Propagated (Checker None h s) []) p tt)) = Err x /\ cycle_p x) \/
  exists o q, dec (Symbol id) (Propagated (Checker None h s) []) p tt = (o, q, tt) /\
    match o with
    | Ok x => exists y, decode_at types data id p = (Ok y, q) /\ same_but_labels y x
    | Err x => decode_at types data id p = (Err x, q)
    | _ => False
    end.
Proof.
  destruct (alone_lag buf reg (Symbol id) h s p tt) as [H|H]; [left; exact H|right].
  pose proof (decode_at_runs buf reg (good_slice data) (good_portable types) id p tt) as Hr. apply runs_returns in Hr.
  unfold decode_at. unfold decode_as_type_at_position in *. unfold alike in H.
  destruct (dec (Symbol id) (Propagated (Checker None h s) []) p tt) as [[o q] []].
  destruct (dec (Symbol id) propagated_new p tt) as [[o' q'] []]. cbn [fst snd] in *. destruct H as (-> & _ & H).
  exists o, q'. split; [reflexivity|]. destruct o, o'; cbn in H; try contradiction.
  - exists a0. split; [reflexivity|]. destruct H as [H1 H2]. split; congruence.
  - congruence.
  - destruct Hr as [[? Hr]|[? Hr]]; discriminate.
  - destruct Hr as [[? Hr]|[? Hr]]; discriminate.
Qed.

Lemma one_by_one_total ids : forall p, exists o q, one_by_one types data ids p o q /\ returns o.
Proof.
  induction ids as [|id ids IH]; intros p.
  - exists (Ok []), p. split; [constructor|left; eauto].
  - destruct (decode_at_body id p) as [_ Hr]. destruct (decode_at types data id p) as [o q] eqn:E. cbn [fst] in Hr.
    destruct Hr as [[x ->]|[y ->]].
    + destruct (IH q) as (o' & q' & H & Hr). destruct Hr as [[l ->]|[y ->]].
      * exists (Ok (x :: l)), q'. split; [eapply OB_all; eauto|left; eauto].
      * exists (Err y), q'. split; [eapply OB_later; eauto|right; eauto].
    + exists (Err y), q. split; [apply OB_fails; exact E|right; eauto].
Qed.

Lemma one_by_one_unique ids : forall p o q o' q', one_by_one types data ids p o q -> one_by_one types data ids p o' q' -> o = o' /\ q = q'.
Proof.
  induction ids as [|id ids IH]; intros p o q o' q' H H'; inversion H; subst; inversion H'; subst; try congruence; auto;
    try (split; congruence);
    match goal with A : decode_at _ _ _ _ = (Ok _, ?a), B : decode_at _ _ _ _ = (Ok _, ?b) |- _ => assert (a = b) by congruence; subst end;
    match goal with A : one_by_one _ _ ids _ _ _, B : one_by_one _ _ ids _ _ _ |- _ => destruct (IH _ _ _ _ _ A B) as [A1 A2] end;
    split; congruence.
Qed.

(** Fields. *)
Definition lagging {A} (R : list (ext pdata) -> A -> Prop) (res : outcome parser_err A * nat * unit)
    (parts : outcome parser_err (list (ext pdata))) (q' : nat) : Prop :=
  (exists x, fst (fst res) = Err x /\ cycle_p x) \/
  snd (fst res) = q' /\
  match parts with
  | Ok l => exists a, fst (fst res) = Ok a /\ R l a
  | Err y => fst (fst res) = Err y
  | _ => False
  end.

Lemma check_id_cases c id : match check_id c id with inl c1 => c1 = Checker (compact_at c) (c_hint c) (cycle_check c ++ [id]) | inr x => cycle_i x end.
Proof. unfold check_id. destruct (existsb _ _); [eexists; reflexivity|reflexivity]. Qed.

Lemma for_field_cases c f : compact_at c = None ->
  match for_field c f with inl P => exists h s, P = Propagated (Checker None h s) [] | inr x => cycle_i x end.
Proof.
  intros Hc. unfold for_field, update_for_field.
  set (c1 := match c_hint c with HNone => with_hint c (hint_from_field f) | _ => c end).
  assert (H1 : compact_at c1 = None) by (unfold c1; destruct (c_hint c); exact Hc).
  pose proof (check_id_cases c1 (f_ty f)) as H. destruct (check_id c1 (f_ty f)); [|exact H].
  subst c0. rewrite H1. unfold with_checker. eauto.
Qed.

Lemma for_ty_cases c t id : compact_at c = None ->
  match for_ty c t id with inl P => exists h s, P = Propagated (Checker None h s) [] | inr x => cycle_i x end.
Proof.
  intros Hc. unfold for_ty, update_for_ty. pose proof (check_id_cases c id) as H. destruct (check_id c id) as [c1|]; [|exact H].
  subst c1. rewrite Hc. unfold with_checker, update_from_path. cbn [c_hint]. destruct (c_hint c); do 2 eexists; reflexivity.
Qed.

Lemma fields_parts fs : forall c p o q, compact_at c = None -> one_by_one types data (map f_ty fs) p o q ->
  lagging (filled fs) (fields_loop dec fs c p tt) o q.
Proof.
  induction fs as [|f fs IH]; intros c p o q Hc H; cbn [fields_loop map] in *.
  - inversion H; subst. right. split; [reflexivity|]. exists []. split; [reflexivity|constructor].
  - unfold bind at 1. unfold lift_p, map_err. pose proof (for_field_cases c f Hc) as Hf.
    destruct (for_field c f) as [P|x]; cbn [lift].
    2: { left. destruct Hf as [i ->]. eexists. split; [reflexivity|]. exists i. reflexivity. }
    destruct Hf as (h & s & ->). unfold ret at 1. unfold bind at 1.
    destruct (part_alone (f_ty f) h s p) as [(x & Hx & Hy)|(o1 & q1 & He & Ho)].
    { left. destruct (dec _ _ p tt) as [[o1 q1] e1]. cbn [fst] in Hx. subst o1. exists x. auto. }
    rewrite He. destruct o1 as [x|x| |]; try contradiction.
    + destruct Ho as (y & Hy & Hs). unfold bind.
      assert (Hrest : exists o2 q2, one_by_one types data (map f_ty fs) q1 o2 q2 /\
        match o2 with Ok l => o = Ok (y :: l) /\ q = q2 | Err z => o = Err z /\ q = q2 | _ => False end).
      { inversion H; subst; try congruence.
        - assert (q1 = q0) by congruence. subst. exists (Err y0), q. auto.
        - assert (q1 = q0) by congruence. subst. exists (Ok l), q. assert (x0 = y) by congruence. subst. auto. }
      destruct Hrest as (o2 & q2 & H2 & H3). specialize (IH c q1 o2 q2 Hc H2). unfold lagging in IH |- *.
      destruct (fields_loop dec fs c q1 tt) as [[o3 q3] e3]. cbn [fst snd] in IH. destruct IH as [(z & -> & Hz)|[-> IH]]; [left; exists z; auto|right].
      destruct o2 as [l|z| |]; try contradiction; destruct H3 as [-> ->].
      * destruct IH as (a & -> & Ha). unfold ret. cbn [fst snd]. split; [reflexivity|]. eexists. split; [reflexivity|].
        rewrite collect_docs_spec. constructor; [exact Hs|exact Ha].
      * subst o3. cbn [fst snd]. auto.
    + right. cbn [fst snd]. inversion H; subst; try congruence. split; congruence.
Qed.

Lemma decode_fields_parts fs c p o q : compact_at c = None -> one_by_one types data (map f_ty fs) p o q ->
  lagging (filled fs) (decode_fields dec fs c p tt) o q.
Proof.
  intros Hc H. unfold decode_fields. destruct fs as [|f1 [|f2 fs]]; try (apply fields_parts; assumption).
  unfold bind at 1. unfold reject_compact_m, reject_compact. rewrite Hc. cbn [lift map_err]. unfold map_err, ret at 1.
  apply fields_parts; assumption.
Qed.

Lemma symbol_resolved id t P p : lookup types id = Some t -> dec (Resolved t id) P p tt = dec (Symbol id) P p tt.
Proof.
  intros Hl. unfold decode_with_type. destruct (decode_fuel buf reg) as [|n]; [reflexivity|]. cbn [decode].
  unfold decode_body. pose proof (resolve_total types id p tt) as Hr. rewrite Hl in Hr.
  assert (H2 : (do t0 <- map_err PRegistry (resolve_ty reg id); ret (t0, id)) p tt = (Ok (t, id), p, tt)).
  { unfold bind, map_err. rewrite Hr. reflexivity. }
  unfold bind at 1. unfold ret at 1. symmetry. unfold bind at 1. rewrite H2. reflexivity.
Qed.

Lemma tuple_parts ids : forall c p o q, compact_at c = None -> one_by_one types data ids p o q ->
  lagging (fun l l' => Forall2 same_but_labels l l') (tuple_loop reg dec ids c p tt) o q.
Proof.
  induction ids as [|id ids IH]; intros c p o q Hc H; cbn [tuple_loop] in *.
  - inversion H; subst. right. split; [reflexivity|]. exists []. split; [reflexivity|constructor].
  - unfold bind at 1. unfold map_err. pose proof (resolve_total types id p tt) as Hr. destruct (lookup types id) as [t|] eqn:Hl; rewrite Hr.
    2: { right. cbn [fst snd]. assert (Hd : decode_at types data id p = (Err (PRegistry (RInternal (TypeNotResolved id))), p)).
         { destruct (decode_at_body id p) as [-> _]. unfold decode_body, bind, map_err. rewrite Hr. reflexivity. }
         inversion H; subst; try congruence. rewrite Hd in *. split; congruence. }
    unfold bind at 1. unfold lift_p, map_err. pose proof (for_ty_cases c t id Hc) as Hf.
    destruct (for_ty c t id) as [P|x]; cbn [lift].
    2: { left. destruct Hf as [i ->]. eexists. split; [reflexivity|]. exists i. reflexivity. }
    destruct Hf as (h & s & ->). unfold ret at 1. unfold bind at 1. rewrite (symbol_resolved id t _ _ Hl).
    destruct (part_alone id h s p) as [(x & Hx & Hy)|(o1 & q1 & He & Ho)].
    { left. destruct (dec _ _ p tt) as [[o1 q1] e1]. cbn [fst] in Hx. subst o1. exists x. auto. }
    rewrite He. destruct o1 as [x|x| |]; try contradiction.
    + destruct Ho as (y & Hy & Hs). unfold bind.
      assert (Hrest : exists o2 q2, one_by_one types data ids q1 o2 q2 /\
        match o2 with Ok l => o = Ok (y :: l) /\ q = q2 | Err z => o = Err z /\ q = q2 | _ => False end).
      { inversion H; subst; try congruence.
        - assert (q1 = q0) by congruence. subst. exists (Err y0), q. auto.
        - assert (q1 = q0) by congruence. subst. exists (Ok l), q. assert (x0 = y) by congruence. subst. auto. }
      destruct Hrest as (o2 & q2 & H2 & H3). specialize (IH c q1 o2 q2 Hc H2). unfold lagging in IH |- *.
      destruct (tuple_loop reg dec ids c q1 tt) as [[o3 q3] e3]. cbn [fst snd] in IH. destruct IH as [(z & -> & Hz)|[-> IH]]; [left; exists z; auto|right].
      destruct o2 as [l|z| |]; try contradiction; destruct H3 as [-> ->].
      * destruct IH as (a & -> & Ha). unfold ret. cbn [fst snd]. split; [reflexivity|]. eexists. split; [reflexivity|].
        constructor; [exact Hs|exact Ha].
      * subst o3. cbn [fst snd]. auto.
    + right. cbn [fst snd]. inversion H; subst; try congruence. split; congruence.
Qed.

(** From one level to [composed]. *)
Lemma finish id pos made o' q' o q : decode_at types data id pos = (o, q) ->
  lagging made (decode_body buf reg dec (Symbol id) propagated_new pos tt) o' q' ->
  composed types made o' q' o q.
Proof.
  intros Hd H. destruct (decode_at_body id pos) as [He _]. rewrite Hd in He. injection He as -> ->.
  destruct H as [(x & Hx & [i ->])|H]; [left|right; exact H].
  eexists. split; [exact Hx|]. exists i. split; [reflexivity|]. rewrite Hx in Hd.
  destruct (decode_body buf reg dec (Symbol id) propagated_new pos tt) as [[o1 q1] e1]. cbn [fst snd] in *.
  eapply cyclic_true_mem. exact Hd.
Qed.

(** Entering a type that is decoded by its definition. *)
Lemma enter id t pos : lookup types id = Some t -> def_of t = Some (t_def t) -> (forall vs, t_def t <> TVariant vs) ->
  decode_body buf reg dec (Symbol id) propagated_new pos tt =
  decode_plain buf reg dec t id (Propagated checker_new (own_info t)) pos tt.
Proof.
  intros Hl Hd Hv. unfold decode_body. unfold bind at 1. unfold bind at 1. unfold map_err.
  pose proof (resolve_total types id pos tt) as Hr. rewrite Hl in Hr. rewrite Hr. unfold ret at 1.
  assert (Hk : checked_from_type buf reg t pos tt = (Ok CNone, pos, tt)).
  { unfold checked_from_type. rewrite hinted_classify. unfold hinted_of. unfold def_of in Hd.
    destruct (classify t); try discriminate; try reflexivity.
    - destruct (strs_eqb _ _); reflexivity.
    - destruct (t_def t) as [|vs| | | | | |]; try reflexivity. destruct (Hv vs eq_refl).
    - destruct (t_def t) as [|vs| | | | | |]; try reflexivity. destruct (Hv vs eq_refl). }
  unfold bind at 1. rewrite Hk. cbn [decode_checked].
  assert (Hi : add_info propagated_new (info_from_ty t) = Propagated checker_new (own_info t)).
  { unfold add_info. rewrite own_info_spec. destruct (info_is_empty _); reflexivity. }
  rewrite Hi. reflexivity.
Qed.

Lemma def_of_same t d : def_of t = Some d -> t_def t = d.
Proof. unfold def_of. destruct (classify t); congruence. Qed.

Lemma lag_map {A B} (R : list (ext pdata) -> A -> Prop) (R' : list (ext pdata) -> B -> Prop) (m : M unit parser_err A) (f : A -> B) p o q :
  lagging R (m p tt) o q -> (forall l a, R l a -> R' l (f a)) -> lagging R' ((do a <- m; ret (f a)) p tt) o q.
Proof.
  intros H Hf. unfold lagging, bind in *. destruct (m p tt) as [[o1 q1] e1]. cbn [fst snd] in *.
  destruct H as [(x & -> & Hx)|[-> H]]; [left; exists x; auto|right].
  destruct o as [l|y| |]; try contradiction.
  - destruct H as (a & -> & Ha). cbn [fst snd ret]. split; [reflexivity|]. exists (f a). auto.
  - subst o1. auto.
Qed.

Theorem struct_parts id t fields pos o q o' q' : lookup types id = Some t -> def_of t = Some (TComposite fields) ->
  decode_at types data id pos = (o, q) -> one_by_one types data (map f_ty fields) pos o' q' ->
  composed types (a_struct t fields) o' q' o q.
Proof.
  intros Hl Hd H H'. eapply finish; [exact H|]. pose proof (def_of_same t _ Hd) as Ht. rewrite (enter id t pos Hl); [|congruence|congruence].
  unfold decode_plain. rewrite Ht. cbn [checker_of info_of].
  apply lag_map with (R := filled fields); [apply decode_fields_parts; [reflexivity|exact H']|].
  intros l a Ha. exists a. auto.
Qed.

Theorem tuple_is_parts id t ids pos o q o' q' : lookup types id = Some t -> def_of t = Some (TTuple ids) ->
  decode_at types data id pos = (o, q) -> one_by_one types data ids pos o' q' ->
  composed types (a_tuple t) o' q' o q.
Proof.
  intros Hl Hd H H'. eapply finish; [exact H|]. pose proof (def_of_same t _ Hd) as Ht. rewrite (enter id t pos Hl); [|congruence|congruence].
  unfold decode_plain. rewrite Ht. cbn [checker_of info_of].
  assert (G : forall c, compact_at c = None -> lagging (a_tuple t) ((do l <- tuple_loop reg dec ids c; ret (Ext (DTuple l) (own_info t))) pos tt) o' q').
  { intros c Hc. apply lag_map with (R := fun l l' => Forall2 same_but_labels l l'); [apply tuple_parts; [exact Hc|exact H']|].
    intros l a Ha. exists a. auto. }
  destruct ids as [|i1 [|i2 ids]]; try (apply G; reflexivity).
Qed.

(** Enums. *)
Lemma variant_parts vs i var pos o q : nth_error data pos = Some i -> by_index vs i = Some var ->
  one_by_one types data (map f_ty (v_fields var)) (pos + 1) o q ->
  lagging (fun l v => exists fs, v = VData (v_name var) (docs_text (v_docs var)) fs /\ filled (v_fields var) l fs) (decode_variant buf dec vs pos tt) o q.
Proof.
  intros Hn Hi H. unfold decode_variant. unfold bind at 1. unfold get_pos at 1. unfold bind at 1.
  pose proof (pick_variant_total data vs pos pos tt) as Hp. rewrite Hn, Hi in Hp. rewrite Hp. unfold bind at 1. unfold set_pos at 1.
  apply lag_map with (R := filled (v_fields var)); [apply decode_fields_parts; [reflexivity|exact H]|].
  intros l a Ha. exists a. rewrite collect_docs_spec. auto.
Qed.

Lemma entered id t pos k n : lookup types id = Some t -> checked_of types t (nth_error data pos) = (k, n) ->
  decode_body buf reg dec (Symbol id) propagated_new pos tt = decode_checked buf reg dec k t id (Propagated checker_new (own_info t)) (pos + n)%nat tt.
Proof.
  intros Hl Hk. unfold decode_body. unfold bind at 1. unfold bind at 1. unfold map_err.
  pose proof (resolve_total types id pos tt) as Hr. rewrite Hl in Hr. rewrite Hr. unfold ret at 1.
  assert (Hi : add_info propagated_new (info_from_ty t) = Propagated checker_new (own_info t)).
  { unfold add_info. rewrite own_info_spec. destruct (info_is_empty _); reflexivity. }
  rewrite Hi. unfold bind at 1. 
  pose proof (checked_from_type_okf types (E := unit) data t pos tt) as Hc. rewrite Hk in Hc. cbn [fst snd] in Hc. destruct Hc as [Hc|(q' & e' & Hc)].
  - rewrite Hc. reflexivity.
  - exfalso. destruct (decode_at_body id pos) as [He Hret]. rewrite He in Hret. cbn [fst] in Hret.
    unfold decode_body in Hret. unfold bind at 1 in Hret. unfold bind at 1 in Hret. unfold map_err in Hret. rewrite Hr in Hret. unfold ret at 1 in Hret.
    unfold bind at 1 in Hret. rewrite Hc in Hret. destruct Hret as [[? Hret]|[? Hret]]; discriminate.
Qed.

Theorem enum_parts id t vs i var pos o q o' q' : lookup types id = Some t -> def_of t = Some (TVariant vs) ->
  nth_error data pos = Some i -> first_with vs i var ->
  variant_sig types t var = None -> pallet_items types t var = None ->
  decode_at types data id pos = (o, q) -> one_by_one types data (map f_ty (v_fields var)) (pos + 1) o' q' ->
  composed types (an_enum t var) o' q' o q.
Proof.
  intros Hl Hd Hn Hi Hs Hp H H'. apply by_index_first in Hi. eapply finish; [exact H|]. pose proof (def_of_same t _ Hd) as Ht.
  assert (Hk : checked_of types t (nth_error data pos) = (CNone, 0)).
  { unfold checked_of. rewrite Hn, Ht, Hi, Hs, Hp. unfold def_of in Hd. destruct (classify t); try discriminate; reflexivity. }
  rewrite (entered id t pos _ _ Hl Hk). rewrite Nat.add_0_r. cbn [decode_checked]. unfold decode_plain. rewrite Ht.
  unfold bind at 1. unfold reject_compact_m, reject_compact. cbn [checker_of checker_new compact_at lift]. unfold map_err, ret at 1.
  cbn [info_of]. destruct vs as [|v0 vs]; [discriminate Hi|].
  eapply lag_map; [apply (variant_parts _ _ _ _ _ _ Hn Hi H')|].
  intros l a (fs & -> & Hf). exists fs. auto.
Qed.

Theorem item_parts id t vs i var inner items j item pos o q o' q' : lookup types id = Some t -> def_of t = Some (TVariant vs) ->
  nth_error data pos = Some i -> first_with vs i var -> pallet_items types t var = Some (inner, items) ->
  nth_error data (pos + 1) = Some j -> first_with items j item ->
  decode_at types data id pos = (o, q) -> one_by_one types data (map f_ty (v_fields item)) (pos + 2) o' q' ->
  composed types (a_call_or_event t inner var item) o' q' o q.
Proof.
  intros Hl Hd Hn Hi Hp Hm Hj H H'. apply by_index_first in Hi, Hj. eapply finish; [exact H|]. pose proof (def_of_same t _ Hd) as Ht.
  assert (Hc : exists it, classify t = SpItem it).
  { unfold pallet_items in Hp. destruct (v_fields var) as [|f [|? ?]]; try discriminate. destruct (lookup types (f_ty f)) as [ity|]; [|discriminate].
    destruct (t_def ity); try discriminate. destruct (classify t); try discriminate. eauto. }
  destruct Hc as [it Hc].
  assert (Hk : checked_of types t (nth_error data pos) = (CPalletSpecific (v_name var) (info_from_ty inner) items it, 1)).
  { unfold checked_of. rewrite Hc, Hn, Ht, Hi, Hp. reflexivity. }
  rewrite (entered id t pos _ _ Hl Hk). cbn [decode_checked].
  unfold bind at 1. unfold reject_compact_m, reject_compact. cbn [checker_of checker_new compact_at lift]. unfold map_err, ret at 1.
  cbn [info_of]. replace (pos + 2) with (pos + 1 + 1) in H' by lia.
  eapply lag_map; [apply (variant_parts _ _ _ _ _ _ Hm Hj H')|].
  intros l a (fs & -> & Hf). exists fs. split; [exact Hf|]. cbn [vd_docs vd_name vd_fields]. rewrite info_from_ty_spec, Hc. destruct it; reflexivity.
Qed.
End Parts.
