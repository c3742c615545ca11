(** C55: names only label. *)
From Coq Require Import Lia.
From Verif Require Import Base Compact Types Indicators Decode Spec Api SpecRename ProofSim.
From Verif Require ProofHint.
Local Open Scope list_scope.

Lemma last_ident path : match path_ident path with Some a => last path ""%string = a | None => path = [] end.
Proof.
  induction path as [|s [|s2 path] IH]; [reflexivity|reflexivity|].
  change (path_ident (s :: s2 :: path)) with (path_ident (s2 :: path)).
  destruct (path_ident (s2 :: path)) eqn:H; [exact IH|discriminate IH].
Qed.

Lemma unknown_hint t : known_path (t_path t) = None -> hinted_from_type t = HtNone.
Proof.
  unfold known_path, hinted_from_type. pose proof (last_ident (t_path t)) as H.
  destruct (path_ident (t_path t)) as [a|]; [|reflexivity]. rewrite H. unfold known_types.
  destruct (existsb _ _) eqn:He; [discriminate|]. intros _. cbn [existsb] in He.
  repeat (apply Bool.orb_false_iff in He; destruct He as [? He]).
  unfold str_in, CALL, EVENT, H160_IDENTS. cbn [existsb].
  repeat match goal with Hx : String.eqb a ?s = false |- _ => rewrite Hx; clear Hx end. reflexivity.
Qed.

Lemma known_hint t1 t2 : known_path (t_path t1) = known_path (t_path t2) -> hinted_from_type t1 = hinted_from_type t2.
Proof.
  intros H. destruct (known_path (t_path t2)) as [q|] eqn:H2.
  - unfold known_path in H, H2. destruct (existsb _ known_types); [|discriminate].
    destruct (existsb _ known_types); [|discriminate]. unfold hinted_from_type.
    assert (t_path t1 = t_path t2) as -> by congruence. reflexivity.
  - rewrite (unknown_hint _ H), (unknown_hint _ H2). reflexivity.
Qed.

Lemma forall2_length {A B} (R : A -> B -> Prop) l1 l2 : Forall2 R l1 l2 -> List.length l1 = List.length l2.
Proof. induction 1; cbn; congruence. Qed.

Lemma forall2_nth {A B} (R : A -> B -> Prop) l1 l2 : Forall2 R l1 l2 -> forall n,
  match nth_error l1 n, nth_error l2 n with Some a, Some b => R a b | None, None => True | _, _ => False end.
Proof. induction 1 as [|a b l1 l2 H _ IH]; intros [|n]; cbn [nth_error]; auto. apply IH. Qed.

Lemma same_but_refl c : ProofHint.same_but_hint c c.
Proof. split; reflexivity. Qed.

Section Names.
Context {E : Type}.
Variable g : reading.
Variable b : buffer E.
Variable ty1 ty2 : list ty.
Hypothesis Hty : same_types g ty1 ty2.
Local Notation r1 := (@portable E ty1).
Local Notation r2 := (@portable E ty2).
Local Notation tr := (same_type g).
Local Notation fr := (same_field g).
Local Notation vr := (same_variant g).
Local Notation cr := ProofHint.same_but_hint.

Definition bare_fd (f : fdata pdata) : fdata pdata :=
  match f with FData n t _ (Ext d _) =>
    FData (field_name_as g n) (type_name_as g t) ""%string (Ext (bare g d) []) end.
Definition bare_x (x : ext pdata) : ext pdata := match x with Ext d _ => Ext (bare g d) [] end.
Definition pr (p1 p2 : propagated) : Prop := cr (checker_of p1) (checker_of p2).
Definition xr (x1 x2 : ext pdata) : Prop := bare g (x_data x1) = bare g (x_data x2).
Definition dr (x1 x2 : pdata) : Prop := bare g x1 = bare g x2.

Lemma add_info_pr p1 p2 i1 i2 : pr p1 p2 -> pr (add_info p1 i1) (add_info p2 i2).
Proof. intros H. unfold add_info. destruct (info_is_empty i1), (info_is_empty i2); exact H. Qed.

Lemma lookup_tr id : match lookup ty1 id, lookup ty2 id with
  | Some t1, Some t2 => tr t1 t2 | None, None => True | _, _ => False end.
Proof.
  unfold lookup. rewrite (forall2_length _ _ _ Hty). destruct (_ <? _)%N; [|exact I].
  apply forall2_nth, Hty.
Qed.

Lemma resolve_tr id : sim tr (resolve_ty r1 id) (resolve_ty r2 id).
Proof.
  intros p e. unfold resolve_ty, alike. cbn [resolve portable]. unfold portable_resolve.
  pose proof (lookup_tr id) as H. destruct (lookup ty1 id), (lookup ty2 id); try contradiction; repeat split; auto;
    apply H.
Qed.

Lemma reg_bound_same : reg_bound r1 = reg_bound r2.
Proof. cbn. apply (forall2_length _ _ _ Hty). Qed.

Definition hr (h1 h2 : husked) : Prop :=
  cr (hu_checker h1) (hu_checker h2) /\ tr (hu_ty h1) (hu_ty h2) /\ hu_id h1 = hu_id h2.

Lemma lift_int_sim {A B} (R : A -> B -> Prop) (x : A + int_err) (y : B + int_err) :
  match x, y with inl a, inl c => R a c | inr a, inr c => a = c | _, _ => False end ->
  sim R (@lift_int E A x) (@lift_int E B y).
Proof. intros H. unfold lift_int. apply sim_map_err, sim_lift, H. Qed.

Lemma reject_int_sim (c1 c2 : checker) : cr c1 c2 ->
  sim eq (@lift_int E _ (reject_compact c1)) (@lift_int E _ (reject_compact c2)).
Proof. intros H. rewrite (ProofHint.reject_same _ _ H). apply sim_eq. Qed.

Lemma husk_loop_sim fuel : forall t1 t2 id c1 c2 a1 a2, tr t1 t2 -> cr c1 c2 ->
  sim hr (husk_loop r1 fuel t1 id c1 a1) (husk_loop r2 fuel t2 id c2 a2).
Proof.
  induction fuel as [|fuel IH]; intros t1 t2 id c1 c2 a1 a2 Ht Hc; cbn [husk_loop]; [intros p e; repeat split|].
  destruct Ht as [Hk Hd]. rewrite (known_hint _ _ Hk).
  generalize (if info_is_empty (info_from_ty t1) then a1 else a1 ++ [info_from_ty t1])
    (if info_is_empty (info_from_ty t2) then a2 else a2 ++ [info_from_ty t2]).
  intros b1 b2.
  assert (Hend : sim hr (@ret E reg_err _ (Husked b1 c1 t1 id)) (ret (Husked b2 c2 t2 id))).
  { apply sim_ret. split; [exact Hc|]. split; [|reflexivity]. split; assumption. }
  destruct (hinted_from_type t2); try exact Hend.
  unfold same_shape in Hd.
  destruct (t_def t1) as [fs1|vs1|el1|n1 el1|els1|x1|in1|s1 o1] eqn:D1,
           (t_def t2) as [fs2|vs2|el2|n2 el2|els2|x2|in2|s2 o2] eqn:D2;
    try contradiction; try discriminate; try exact Hend.
  - destruct Hd as [|f1 f2 fs1 fs2 Hf Hfs]; [exact Hend|]. destruct Hfs; [|exact Hend].
    destruct Hf as (Hft & _). rewrite Hft.
    eapply sim_bind with (R := cr).
    { apply lift_int_sim, ProofHint.check_id_same, Hc. }
    intros d1 d2 Hd.
    eapply sim_bind; [apply resolve_tr|]. intros u1 u2 Hu. apply IH; [exact Hu|].
    destruct Hd as [H1 H2]. destruct (c_hint d1), (c_hint d2); split; cbn; assumption.
  - injection Hd as ->. eapply sim_bind; [apply reject_int_sim, Hc|]. intros _ _ _.
    eapply sim_bind with (R := cr).
    { apply lift_int_sim, ProofHint.check_id_same. destruct Hc; split; cbn; congruence. }
    intros d1 d2 Hdd.
    eapply sim_bind; [apply resolve_tr|]. intros u1 u2 Hu. apply IH; assumption.
Qed.

Lemma husk_type_sim el c1 c2 : cr c1 c2 -> sim hr (husk_type r1 el c1) (husk_type r2 el c2).
Proof.
  intros Hc. unfold husk_type. eapply sim_bind with (R := cr); [apply lift_int_sim, ProofHint.check_id_same, Hc|].
  intros d1 d2 Hd.
  eapply sim_bind; [apply resolve_tr|]. intros u1 u2 Hu.
  unfold husk_fuel. rewrite reg_bound_same. apply husk_loop_sim; [exact Hu|].
  destruct Hd as [_ H2]. split; cbn; congruence.
Qed.

(** *** Recognised types *)

Lemma find_variant_vr vs1 vs2 i : Forall2 vr vs1 vs2 ->
  match find_variant vs1 i, find_variant vs2 i with
  | Some a, Some b => vr a b | None, None => True | _, _ => False end.
Proof.
  induction 1 as [|v1 v2 vs1 vs2 Hv _ IH]; [exact I|]. unfold find_variant in *. cbn [find].
  pose proof Hv as (Hi & _). rewrite Hi. destruct (v_index v2 =? i)%N; [exact Hv|exact IH].
Qed.

Lemma pick_variant_sim vs1 vs2 p : Forall2 vr vs1 vs2 ->
  sim vr (pick_variant b vs1 p) (pick_variant b vs2 p).
Proof.
  intros H. unfold pick_variant. eapply sim_bind; [apply sim_eq|]. intros i ? <-.
  pose proof (find_variant_vr vs1 vs2 i H) as Hf.
  destruct (find_variant vs1 i), (find_variant vs2 i); try contradiction; [apply sim_ret, Hf|apply sim_fail].
Qed.

Lemma signature_cases (n : option string) :
  match signature_name n with
  | None => match n with
            | None => True
            | Some s => str_in s SIGNATURE_ECDSA_ID_SET = false /\ str_in s SIGNATURE_ED25519_ID_SET = false /\
                        str_in s SIGNATURE_SR25519_ID_SET = false
            end
  | Some s => n = Some s
  end.
Proof.
  unfold signature_name, str_in, SIGNATURE_ECDSA_ID_SET, SIGNATURE_ED25519_ID_SET, SIGNATURE_SR25519_ID_SET.
  destruct n as [s|]; [|exact I]. cbn [existsb].
  destruct (String.eqb s "ecdsa::Signature"); [reflexivity|].
  destruct (String.eqb s "ed25519::Signature"); [reflexivity|].
  destruct (String.eqb s "sr25519::Signature"); [reflexivity|]. repeat split.
Qed.

Lemma signature_sim f1 f2 : fr f1 f2 -> sim eq (signature_from_field r1 f1) (signature_from_field r2 f2).
Proof.
  intros (H2 & _ & _ & H3). unfold signature_from_field. rewrite H2.
  eapply sim_bind; [apply sim_catch, husk_type_sim, same_but_refl|].
  intros [h1|x1] [h2|x2] Hh; try contradiction; [|apply sim_eq].
  destruct Hh as (_ & (_ & Hd) & _). unfold same_shape in Hd.
  destruct (t_def (hu_ty h1)), (t_def (hu_ty h2)); try contradiction; try discriminate; try apply sim_eq.
  injection Hd as -> ->. eapply sim_bind; [apply sim_catch, resolve_tr|].
  intros [u1|y1] [u2|y2] Hu; try contradiction; [|apply sim_eq].
  destruct Hu as [_ Hd]. unfold same_shape in Hd.
  destruct (t_def u1), (t_def u2); try contradiction; try discriminate; try apply sim_eq.
  injection Hd as ->. destruct p0 as [| | |[]| | |]; try apply sim_eq.
  pose proof (signature_cases (f_type_name f1)) as C1. pose proof (signature_cases (f_type_name f2)) as C2.
  rewrite H3 in C1. destruct (signature_name (f_type_name f2)) as [s|].
  - rewrite C1, C2. apply sim_eq.
  - destruct (f_type_name f1) as [n1|], (f_type_name f2) as [n2|]; try apply sim_eq;
      repeat match goal with H : _ /\ _ |- _ => destruct H end;
      repeat match goal with H : str_in _ _ = false |- _ => rewrite H; clear H end; apply sim_eq.
Qed.

Definition kr (k1 k2 : checked) : Prop :=
  match k1, k2 with
  | CPalletSpecific n1 _ vs1 it1, CPalletSpecific n2 _ vs2 it2 =>
      variant_name_as g n1 = variant_name_as g n2 /\ Forall2 vr vs1 vs2 /\ it1 = it2
  | CPalletSpecific _ _ _ _, _ | _, CPalletSpecific _ _ _ _ => False
  | _, _ => k1 = k2
  end.

Lemma kr_refl k : match k with CPalletSpecific _ _ _ _ => True | _ => kr k k end.
Proof. destruct k; cbn; auto. Qed.

Lemma sim_none : sim kr (@ret E parser_err _ CNone) (ret CNone).
Proof. apply sim_ret. reflexivity. Qed.

Lemma checked_sim t1 t2 : tr t1 t2 -> sim kr (checked_from_type b r1 t1) (checked_from_type b r2 t2).
Proof.
  intros [Hk Hd]. unfold checked_from_type. rewrite (known_hint _ _ Hk). unfold same_shape in Hd.
  destruct (hinted_from_type t2); try (apply sim_ret; reflexivity).
  - destruct (t_def t1) as [fs1|vs1|el1|n1 el1|els1|x1|in1|s1 o1], (t_def t2) as [fs2|vs2|el2|n2 el2|els2|x2|in2|s2 o2];
      try contradiction; try discriminate; try exact sim_none.
    eapply sim_bind; [apply sim_eq|]. intros p ? <-.
    eapply sim_bind; [apply sim_catch, pick_variant_sim, Hd|].
    intros [v1|y1] [v2|y2] Hv; try contradiction; [|exact sim_none].
    destruct Hv as (_ & _ & Hf).
    destruct Hf as [|f1 f2 fs1 fs2 Hf Hfs]; [exact sim_none|]. destruct Hfs; [|exact sim_none].
    eapply sim_bind; [apply (signature_sim f1 f2), Hf|]. intros s ? <-.
    destruct s; try exact sim_none; (eapply sim_bind; [apply sim_eq|]; intros _ _ _; apply sim_ret; reflexivity).
  - destruct (t_def t1) as [fs1|vs1|el1|n1 el1|els1|x1|in1|s1 o1], (t_def t2) as [fs2|vs2|el2|n2 el2|els2|x2|in2|s2 o2];
      try contradiction; try discriminate; try exact sim_none.
    eapply sim_bind; [apply sim_eq|]. intros p ? <-.
    eapply sim_bind; [apply sim_catch, pick_variant_sim, Hd|].
    intros [v1|y1] [v2|y2] Hv; try contradiction; [|exact sim_none].
    destruct Hv as (_ & Hn & Hf).
    destruct Hf as [|f1 f2 fs1 fs2 Hf Hfs]; [exact sim_none|]. destruct Hfs; [|exact sim_none].
    destruct Hf as (Hft & _). rewrite Hft.
    eapply sim_bind; [apply sim_catch, resolve_tr|].
    intros [u1|y1] [u2|y2] Hu; try contradiction; [|exact sim_none].
    destruct Hu as [Hku Hd2]. rewrite (known_hint _ _ Hku). destruct (hinted_from_type u2); try exact sim_none.
    destruct (pitem_eqb i i0); [|exact sim_none].
    unfold same_shape in Hd2.
    destruct (t_def u1) as [fs1|ws1|el1|n1 el1|els1|x1|in1|s1 o1], (t_def u2) as [fs2|ws2|el2|n2 el2|els2|x2|in2|s2 o2];
      try contradiction; try discriminate; try exact sim_none.
    eapply sim_bind; [apply sim_eq|]. intros _ _ _. apply sim_ret. repeat split; auto.
Qed.

Lemma bits_sim s o id : sim eq (decode_bit_sequence b r1 s o id) (decode_bit_sequence b r2 s o id).
Proof.
  unfold decode_bit_sequence. eapply sim_bind; [apply sim_eq|]. intros p ? <-.
  eapply sim_bind with (R := eq).
  { apply sim_map_err. unfold find_bit_order_ty. eapply sim_bind; [apply resolve_tr|].
    intros t1 t2 [Hk Hd]. unfold same_shape in Hd.
    destruct (t_def t1), (t_def t2); try contradiction; try discriminate; try apply sim_eq.
    unfold known_path in Hk. pose proof (last_ident (t_path t1)) as L1. pose proof (last_ident (t_path t2)) as L2.
    destruct (existsb _ _) eqn:K1 in Hk; destruct (existsb _ _) eqn:K2 in Hk; try discriminate Hk.
    - injection Hk as ->. apply sim_eq.
    - assert (Hno : forall path, existsb (String.eqb (last path ""%string)) known_types = false ->
        match path_ident path with
        | Some x => String.eqb x "Lsb0" = false /\ String.eqb x "Msb0" = false
        | None => True
        end).
      { intros path H. pose proof (last_ident path) as L. destruct (path_ident path) as [x|]; [|exact I].
        rewrite L in H. unfold known_types in H. cbn [existsb] in H.
        repeat (apply Bool.orb_false_iff in H; destruct H as [? H]). split; assumption. }
      pose proof (Hno _ K1) as N1. pose proof (Hno _ K2) as N2.
      destruct (path_ident (t_path t1)), (path_ident (t_path t2));
        repeat match goal with H : _ /\ _ |- _ => destruct H end;
        repeat match goal with H : String.eqb _ _ = false |- _ => rewrite H; clear H end; apply sim_eq. }
  intros bo ? <-. eapply sim_bind; [apply sim_map_err, resolve_tr|].
  intros t1 t2 [_ Hd]. unfold same_shape in Hd.
  destruct (t_def t1), (t_def t2); try contradiction; try discriminate; try apply sim_eq.
  injection Hd as ->. apply sim_eq.
Qed.

(** *** Collected sequences *)

Lemma husk_uint_bare w l : forall a, husk_set_uint w l = Some a ->
  map (bare g) l = map (fun n => DUInt w n SuNone) a.
Proof.
  induction l as [|d l IH]; intros a H; [injection H as <-; reflexivity|].
  destruct d as [| | | | | |w' n s| | | | | | | | | | | | |]; try discriminate H.
  cbn [husk_set_uint] in H. destruct s; try discriminate H.
  destruct (husk_set_uint w l) as [a'|]; [|destruct w, w'; discriminate H].
  specialize (IH a' eq_refl). cbn [map bare]. rewrite IH.
  destruct w, w'; try discriminate H; injection H as <-; reflexivity.
Qed.

Lemma husk_vec_bare l : forall i a, husk_set_vec l i = Some a ->
  map (bare g) l = map (fun x => DSequenceRaw [] (map (fun n => DUInt U8 n SuNone) x)) (fst a).
Proof.
  induction l as [|d l IH]; intros i a H; [injection H as <-; reflexivity|].
  destruct d as [| | | | | | | | | | | | | | | | | |inf s|inf l0]; try discriminate H; cbn [husk_set_vec] in H.
  - destruct s as [w x|]; [|discriminate H]. destruct w; try discriminate H.
    assert (exists j, option_map (fun y => (x :: fst y, snd y)) (husk_set_vec l j) = Some a) as [j Hj].
    { destruct i as [i|]; [destruct (infos_eqb i inf); [|discriminate]|]; eexists; exact H. }
    destruct (husk_set_vec l j) as [y|] eqn:Hy; [|discriminate Hj]. injection Hj as <-.
    cbn [map bare fst]. rewrite (IH _ _ Hy). reflexivity.
  - destruct l0 as [|]; [|discriminate H].
    destruct (husk_set_vec l i) as [y|] eqn:Hy; [|discriminate H]. injection H as <-.
    cbn [map bare fst]. rewrite (IH _ _ Hy). reflexivity.
Qed.

Lemma collected_bare l inf : bare g (match wrap_sequence l with Some s => DSequence inf s | None => DSequenceRaw inf l end)
  = DSequenceRaw [] (map (bare g) l).
Proof.
  destruct (wrap_sequence l) as [s|] eqn:H; [|reflexivity].
  unfold wrap_sequence in H. destruct l as [|d l]; [discriminate|].
  destruct d as [| | | | | |w n sp| | | | | | | | | | | |i s'|]; try discriminate H.
  - destruct (husk_set_uint w (DUInt w n sp :: l)) as [a|] eqn:Ha; [|discriminate H]. injection H as <-.
    rewrite (husk_uint_bare _ _ _ Ha). reflexivity.
  - destruct s' as [[] x|]; try discriminate H.
    destruct (husk_set_vec (DSequence i (SeqU U8 x) :: l) None) as [a|] eqn:Ha; [|discriminate H]. injection H as <-.
    rewrite (husk_vec_bare _ _ _ Ha). reflexivity.
Qed.

(** *** The decoder *)

Lemma prim_dr x c1 c2 : cr c1 c2 -> sim dr (decode_primitive b x c1) (decode_primitive b x c2).
Proof.
  intros H. pose proof H as [Hc _]. unfold dr. destruct x; cbn [decode_primitive];
    unfold block_compact; rewrite ?Hc; try (apply sim_same; reflexivity).
  - eapply sim_bind; [apply ProofHint.reject_m_sim, H|]. intros _ _ _. unfold decode_str.
    eapply sim_bind; [apply sim_eq|]. intros p ? <-. eapply sim_bind; [apply sim_eq|]. intros [n s] ? <-.
    eapply sim_bind; [apply sim_eq|]. intros l ? <-. destruct (utf8_valid l); [|apply sim_fail].
    eapply sim_bind; [apply sim_eq|]. intros _ _ _. apply sim_ret. reflexivity.
  - unfold parse_uint. rewrite Hc. eapply sim_bind; [apply sim_eq|]. intros n ? <-.
    apply sim_ret. reflexivity.
Qed.

Section Body.
Variable dec1 dec2 : ty_input -> propagated -> M E parser_err (ext pdata).

Definition inr1 (i1 i2 : ty_input) : Prop :=
  match i1, i2 with
  | Resolved t1 a, Resolved t2 c => tr t1 t2 /\ a = c
  | Symbol a, Symbol c => a = c
  | _, _ => False
  end.
Hypothesis Hdec : forall i1 i2 p1 p2, inr1 i1 i2 -> pr p1 p2 -> sim xr (dec1 i1 p1) (dec2 i2 p2).

Definition fdr (l1 l2 : list (fdata pdata)) : Prop := map bare_fd l1 = map bare_fd l2.

Lemma for_field_fr c1 c2 f1 f2 : cr c1 c2 -> f_ty f1 = f_ty f2 ->
  match for_field c1 f1, for_field c2 f2 with
  | inl a, inl d => pr a d | inr a, inr d => a = d | _, _ => False end.
Proof.
  intros H Hf. unfold for_field, update_for_field. rewrite Hf.
  assert (Hc : cr (match c_hint c1 with HNone => with_hint c1 (hint_from_field f1) | _ => c1 end)
                  (match c_hint c2 with HNone => with_hint c2 (hint_from_field f2) | _ => c2 end)).
  { destruct H as [H1 H2]. destruct (c_hint c1), (c_hint c2); split; cbn; assumption. }
  apply (ProofHint.check_id_same _ _ (f_ty f2)) in Hc.
  destruct (check_id _ (f_ty f2)), (check_id _ (f_ty f2)); auto.
Qed.

Lemma for_ty_tr c1 c2 t1 t2 id : cr c1 c2 ->
  match for_ty c1 t1 id, for_ty c2 t2 id with
  | inl a, inl d => pr a d | inr a, inr d => a = d | _, _ => False end.
Proof.
  intros H. unfold for_ty, update_for_ty. apply (ProofHint.check_id_same _ _ id) in H.
  destruct (check_id c1 id) as [a1|], (check_id c2 id) as [a2|]; try contradiction; auto.
  destruct H as [H1 H2]. unfold pr, update_from_path. cbn [checker_of].
  destruct (c_hint a1), (c_hint a2); split; cbn; assumption.
Qed.

Lemma lift_p_sim {A B} (R : A -> B -> Prop) (x : A + int_err) (y : B + int_err) :
  match x, y with inl a, inl c => R a c | inr a, inr c => a = c | _, _ => False end ->
  sim R (@lift_p E A x) (@lift_p E B y).
Proof. intros H. unfold lift_p. apply sim_map_err, sim_lift, H. Qed.

Lemma fields_loop_dr fs1 fs2 : Forall2 fr fs1 fs2 -> forall c1 c2, cr c1 c2 ->
  sim fdr (fields_loop dec1 fs1 c1) (fields_loop dec2 fs2 c2).
Proof.
  induction 1 as [|f1 f2 fs1 fs2 Hf Hfs IH]; intros c1 c2 Hc; cbn [fields_loop]; [apply sim_ret; reflexivity|].
  destruct Hf as (Ht & Hn & Htn & _).
  eapply sim_bind; [apply lift_p_sim, for_field_fr; [exact Hc|exact Ht]|]. intros p1 p2 Hp. rewrite Ht.
  eapply sim_bind; [apply (Hdec (Symbol (f_ty f2)) (Symbol (f_ty f2))); [reflexivity|exact Hp]|].
  intros x1 x2 Hx. eapply sim_bind; [apply IH, Hc|]. intros l1 l2 Hl. apply sim_ret.
  unfold fdr, xr in *. cbn [map bare_fd]. rewrite Hl.
  destruct x1, x2. cbn in *. congruence.
Qed.

Lemma decode_fields_dr fs1 fs2 c1 c2 : Forall2 fr fs1 fs2 -> cr c1 c2 ->
  sim fdr (decode_fields dec1 fs1 c1) (decode_fields dec2 fs2 c2).
Proof.
  intros H Hc. unfold decode_fields.
  destruct H as [|f1 f2 fs1 fs2 Hf H]; [apply fields_loop_dr; [constructor|exact Hc]|].
  destruct H as [|g1 g2 fs1 fs2 Hg H]; [apply fields_loop_dr; [repeat constructor; apply Hf|exact Hc]|].
  eapply sim_bind; [apply ProofHint.reject_m_sim, Hc|]. intros _ _ _.
  apply fields_loop_dr; [constructor; [exact Hf|constructor; [exact Hg|exact H]]|].
  apply ProofHint.forget_same, Hc.
Qed.

Definition bare_v (v : vdata pdata) := match v with VData n _ fs => (variant_name_as g n, map bare_fd fs) end.

Lemma decode_variant_dr vs1 vs2 : Forall2 vr vs1 vs2 ->
  sim (fun v1 v2 => bare_v v1 = bare_v v2) (decode_variant b dec1 vs1) (decode_variant b dec2 vs2).
Proof.
  intros H. unfold decode_variant. eapply sim_bind; [apply sim_eq|]. intros p ? <-.
  eapply sim_bind; [apply pick_variant_sim, H|]. intros v1 v2 Hv. destruct Hv as (_ & Hn & Hf).
  eapply sim_bind; [apply sim_eq|]. intros _ _ _.
  eapply sim_bind; [apply decode_fields_dr; [exact Hf|apply same_but_refl]|].
  intros l1 l2 Hl. apply sim_ret. cbn [bare_v]. rewrite Hn, Hl. reflexivity.
Qed.

Lemma elements_dr hu1 hu2 n : hr hu1 hu2 ->
  sim (fun l1 l2 => map (bare g) l1 = map (bare g) l2) (elements_loop dec1 n hu1) (elements_loop dec2 n hu2).
Proof.
  intros (Hc & Ht & Hid). induction n as [|n IH]; cbn [elements_loop]; [apply sim_ret; reflexivity|].
  eapply sim_bind; [apply Hdec; [split; assumption|exact Hc]|]. intros x1 x2 Hx.
  eapply sim_bind; [apply IH|]. intros l1 l2 Hl. apply sim_ret. cbn [map]. unfold xr in Hx. congruence.
Qed.

Lemma elements_set_dr el n p1 p2 : pr p1 p2 ->
  sim xr (decode_elements_set r1 dec1 el n p1) (decode_elements_set r2 dec2 el n p2).
Proof.
  intros Hc. unfold decode_elements_set. eapply sim_bind; [apply ProofHint.reject_m_sim, Hc|]. intros _ _ _.
  eapply sim_bind; [apply sim_map_err, husk_type_sim, Hc|]. intros hu1 hu2 Hh.
  destruct (n =? 0)%N; [apply sim_ret; reflexivity|].
  eapply sim_bind; [apply elements_dr, Hh|]. intros l1 l2 Hl. apply sim_ret. unfold xr. cbn [x_data].
  rewrite !collected_bare, Hl. reflexivity.
Qed.

Lemma tuple_loop_dr ids : forall c1 c2, cr c1 c2 ->
  sim (fun l1 l2 => map bare_x l1 = map bare_x l2) (tuple_loop r1 dec1 ids c1) (tuple_loop r2 dec2 ids c2).
Proof.
  induction ids as [|i ids IH]; intros c1 c2 Hc; cbn [tuple_loop]; [apply sim_ret; reflexivity|].
  eapply sim_bind; [apply sim_map_err, resolve_tr|]. intros t1 t2 Ht.
  eapply sim_bind; [apply lift_p_sim, for_ty_tr, Hc|]. intros p1 p2 Hp.
  eapply sim_bind; [apply Hdec; [split; [exact Ht|reflexivity]|exact Hp]|]. intros x1 x2 Hx.
  eapply sim_bind; [apply IH, Hc|]. intros l1 l2 Hl. apply sim_ret. cbn [map]. rewrite Hl.
  unfold xr in Hx. destruct x1, x2. cbn in *. congruence.
Qed.

Lemma decode_plain_dr t1 t2 id p1 p2 : tr t1 t2 -> pr p1 p2 ->
  sim xr (decode_plain b r1 dec1 t1 id p1) (decode_plain b r2 dec2 t2 id p2).
Proof.
  intros [_ Hd] Hc. unfold same_shape in Hd. unfold decode_plain.
  destruct (t_def t1) as [fs1|vs1|el1|n1 el1|els1|x1|in1|s1 o1], (t_def t2) as [fs2|vs2|el2|n2 el2|els2|x2|in2|s2 o2];
    try contradiction; try discriminate.
  - eapply sim_bind; [apply decode_fields_dr; [exact Hd|exact Hc]|]. intros l1 l2 Hl. apply sim_ret.
    unfold xr. cbn [x_data bare]. f_equal. exact Hl.
  - eapply sim_bind; [apply ProofHint.reject_m_sim, Hc|]. intros _ _ _.
    destruct Hd as [|v1 v2 vs1 vs2 Hv Hd]; [apply sim_ret; reflexivity|].
    eapply sim_bind; [apply decode_variant_dr; constructor; assumption|]. intros w1 w2 Hw. apply sim_ret.
    unfold xr. destruct w1, w2. cbn [bare_v] in Hw. injection Hw as Hn Hw. cbn [x_data bare].
    unfold bare_fd in Hw. rewrite Hw, Hn. reflexivity.
  - injection Hd as ->. eapply sim_bind; [apply sim_eq|]. intros n ? <-. apply elements_set_dr.
    destruct Hc; split; cbn; auto.
  - injection Hd as -> ->. apply elements_set_dr, Hc.
  - injection Hd as ->. destruct els2 as [|i1 [|i2 ids]];
      try (eapply sim_bind; [apply tuple_loop_dr, Hc|]; intros l1 l2 Hl; apply sim_ret;
           unfold xr; cbn [x_data bare]; f_equal; exact Hl).
    eapply sim_bind; [apply ProofHint.reject_m_sim, Hc|]. intros _ _ _.
    eapply sim_bind; [apply tuple_loop_dr, ProofHint.forget_same, Hc|]; intros l1 l2 Hl; apply sim_ret;
           unfold xr; cbn [x_data bare]; f_equal; exact Hl.
  - injection Hd as ->. eapply sim_bind with (R := dr).
    { apply prim_dr, Hc. }
    intros d1 d2 Hdd. apply sim_ret. exact Hdd.
  - injection Hd as ->. eapply sim_bind; [apply ProofHint.reject_m_sim, Hc|]. intros _ _ _.
    eapply sim_bind; [apply lift_p_sim, ProofHint.check_id_same; destruct Hc; split; cbn; auto|].
    intros a1 a2 Ha. apply Hdec; [reflexivity|]. exact Ha.
  - injection Hd as -> ->. eapply sim_bind; [apply ProofHint.reject_m_sim, Hc|]. intros _ _ _.
    eapply sim_bind; [apply bits_sim|]. intros d ? <-. apply sim_ret. reflexivity.
Qed.

Lemma decode_body_dr i1 i2 p1 p2 : inr1 i1 i2 -> pr p1 p2 ->
  sim xr (decode_body b r1 dec1 i1 p1) (decode_body b r2 dec2 i2 p2).
Proof.
  intros Hin Hp. unfold decode_body.
  eapply sim_bind with (R := fun a c => tr (fst a) (fst c) /\ snd a = snd c).
  { destruct i1 as [t1 a|a], i2 as [t2 c|c]; cbn in Hin; try contradiction.
    - apply sim_ret. exact Hin.
    - subst c. eapply sim_bind; [apply sim_map_err, resolve_tr|]. intros t1 t2 Ht. apply sim_ret. split; auto. }
  intros [t1 id] [t2 ?] [Ht Hid]. cbn [fst snd] in *. subst.
  eapply sim_bind; [apply checked_sim, Ht|]. intros k1 k2 Hk.
  pose proof (add_info_pr _ _ (info_from_ty t1) (info_from_ty t2) Hp) as Hp2. revert Hp2.
  generalize (add_info p1 (info_from_ty t1)) (add_info p2 (info_from_ty t2)). clear Hp p1 p2. intros p1 p2 Hc.
  destruct k1, k2; cbn [kr] in Hk; try discriminate Hk; try contradiction; cbn [decode_checked].
  - apply decode_plain_dr; assumption.
  - injection Hk as ->. unfold parse_fixed, block_compact. destruct Hc as [-> _].
    eapply sim_bind; [apply sim_eq|]. intros d ? <-. apply sim_ret. reflexivity.
  - eapply sim_bind; [apply ProofHint.reject_m_sim, Hc|]. intros _ _ _.
    eapply sim_bind; [apply sim_eq|]. intros d ? <-. apply sim_ret. reflexivity.
  - eapply sim_bind; [apply ProofHint.reject_m_sim, Hc|]. intros _ _ _. eapply sim_bind with (R := dr).
    + unfold special_case_h256. eapply sim_bind; [apply sim_eq|]. intros x ? <-. apply sim_ret. reflexivity.
    + intros d1 d2 Hd. apply sim_ret. exact Hd.
  - destruct Hk as (Hn & Hvs & ->). eapply sim_bind; [apply ProofHint.reject_m_sim, Hc|]. intros _ _ _.
    eapply sim_bind; [apply decode_variant_dr, Hvs|]. intros w1 w2 Hw. apply sim_ret.
    unfold xr. destruct w1 as [n1 dc1 gs1], w2 as [n2 dc2 gs2]. cbn [bare_v] in Hw. injection Hw as Hm Hw.
    cbv beta iota zeta delta [Types.vd_docs Types.vd_name Types.vd_fields Types.x_data].
    destruct item0; cbn [bare]; unfold bare_fd in Hw; rewrite Hw, Hn, Hm; reflexivity.
  - injection Hk as ->. unfold parse_per. destruct Hc as [-> _].
    eapply sim_bind; [apply sim_eq|]. intros d ? <-. apply sim_ret. reflexivity.
Qed.
End Body.

Lemma decode_dr fuel : forall i1 i2 p1 p2, inr1 i1 i2 -> pr p1 p2 ->
  sim xr (decode b r1 fuel i1 p1) (decode b r2 fuel i2 p2).
Proof.
  induction fuel as [|fuel IH]; intros i1 i2 p1 p2 Hi Hp; [intros p e; repeat split|].
  cbn [decode]. apply decode_body_dr; auto.
Qed.

Theorem names_same id pos e :
  alike xr (decode_as_type_at_position b r1 id pos e) (decode_as_type_at_position b r2 id pos e).
Proof.
  unfold decode_as_type_at_position, decode_with_type, decode_fuel. rewrite reg_bound_same.
  apply decode_dr; [reflexivity|apply same_but_refl].
Qed.
End Names.
