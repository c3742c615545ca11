(** The decoder against the specification: soundness and completeness. *)
From Coq Require Import Lia ZifyBool ZifyNat ZifyN.
From Verif Require Import Base Compact Types Indicators Decode Spec ProofBase ProofCompact
  ProofUtf8 ProofLeaf ProofRead ProofTables ProofPeel ProofSpec ProofRel.
Local Open Scope list_scope.

Section Main.
Variable types : list ty.
Context {E : Type}.
Variable data : bytes.
Hypothesis Hbytes : is_bytes data.
Local Notation enc := (enc types).
Local Notation view := (view types).
Local Notation nocyc := (nocyc types).
Local Notation lookup := (lookup types).
Local Notation buf := (@slice_buffer E data).
Local Notation reg := (@portable E types).
Local Notation rel := (rel types data).

Definition ty_id (inp : ty_input) : N := match inp with Resolved _ id => id | Symbol id => id end.

Definition good (inp : ty_input) : Prop :=
  match inp with Resolved t id => lookup id = Some t | Symbol _ => True end.

Definition sound (dec : ty_input -> propagated -> M E parser_err (ext pdata)) : Prop :=
  forall inp p pos e x q e', good inp -> dec inp p pos e = (Ok x, q, e') ->
  e' = e /\ exists l, x_info x = info_of p ++ l /\ rel (checker_of p) (ty_id inp) pos (x_data x) l q.

Definition complete (dec : ty_input -> propagated -> M E parser_err (ext pdata)) : Prop :=
  forall inp p pos e d l q, good inp -> rel (checker_of p) (ty_id inp) pos d l q ->
  okf (dec inp p) pos e (Ext d (info_of p ++ l)) q.

Lemma update_for_field_ok c f c1 : update_for_field c f = inl c1 <->
  fresh (cycle_check c) (f_ty f) = true /\
  c1 = Checker (compact_at c) (or_label (c_hint c) (field_label f)) (cycle_check c ++ [f_ty f]).
Proof.
  unfold update_for_field. rewrite check_id_ok, hint_from_field_spec.
  destruct c as [ca h cy]; destruct h; cbn [c_hint with_hint compact_at cycle_check or_label]; tauto.
Qed.

Lemma for_field_ok c f p1 : for_field c f = inl p1 <->
  fresh (cycle_check c) (f_ty f) = true /\
  p1 = with_checker (Checker (compact_at c) (or_label (c_hint c) (field_label f)) (cycle_check c ++ [f_ty f])).
Proof.
  unfold for_field. destruct (update_for_field c f) as [c1|x] eqn:Hu.
  - apply update_for_field_ok in Hu. destruct Hu as (Hf & ->). split.
    + intros H; injection H as <-. auto.
    + intros (_ & ->). reflexivity.
  - split; [discriminate|]. intros (Hf & ->).
    assert (H : update_for_field c f = inl (Checker (compact_at c) (or_label (c_hint c) (field_label f)) (cycle_check c ++ [f_ty f])))
      by (apply update_for_field_ok; auto). congruence.
Qed.

Lemma for_ty_ok c t id p1 : for_ty c t id = inl p1 <->
  fresh (cycle_check c) id = true /\
  p1 = with_checker (Checker (compact_at c) (or_label (c_hint c) (path_label t)) (cycle_check c ++ [id])).
Proof.
  unfold for_ty, update_for_ty. destruct (check_id c id) as [c1|x] eqn:Hu.
  - apply check_id_ok in Hu. destruct Hu as (Hf & ->).
    assert (Hx : update_from_path (Checker (compact_at c) (c_hint c) (cycle_check c ++ [id])) (t_path t) =
      Checker (compact_at c) (or_label (c_hint c) (path_label t)) (cycle_check c ++ [id])).
    { unfold update_from_path. rewrite hint_from_path_spec.
      destruct c as [ca h cy]; destruct h; reflexivity. }
    rewrite Hx. split.
    + intros H; injection H as <-. auto.
    + intros (_ & ->). reflexivity.
  - split; [discriminate|]. intros (Hf & ->).
    assert (H : check_id c id = inl (Checker (compact_at c) (c_hint c) (cycle_check c ++ [id])))
      by (apply check_id_ok; auto). congruence.
Qed.

Lemma okf_reject c p (e : E) : compact_at c = None -> okf (reject_compact_m c) p e tt p.
Proof. intros H. apply okf_ok, reject_compact_m_ok. auto. Qed.

(** ** Lists of members *)

Definition fenc (c : checker) := enc_list (fun f => enc (is_some (compact_at c)) (f_ty f)).
Definition fview (c : checker) := view_list (fun f v => option_map (field_form f)
  (view false (or_label (c_hint c) (field_label f)) (f_ty f) v)).
Definition fcyc (c : checker) := all2 (fun f v =>
  fresh (cycle_check c) (f_ty f) && nocyc (cycle_check c ++ [f_ty f]) (f_ty f) v)%bool.

Definition tenc (c : checker) := enc_list (enc (is_some (compact_at c))).
Definition tview (c : checker) := view_list (fun i v =>
     match lookup i with
     | Some ti => option_map (fun x => Ext (fst x) (snd x))
           (view false (or_label (c_hint c) (path_label ti)) i v)
     | None => None
     end).
Definition tcyc (c : checker) := all2 (fun i v =>
  fresh (cycle_check c) i && nocyc (cycle_check c ++ [i]) i v)%bool.

(** Inversion of lists: one member and the rest. *)
Lemma enc_list_cons {A} (f : A -> value -> option bytes) i ids vs bs :
  enc_list f (i :: ids) vs = Some bs -> exists v vs' a b, vs = v :: vs' /\
  f i v = Some a /\ enc_list f ids vs' = Some b /\ bs = a ++ b.
Proof.
  destruct vs as [|v vs]; [discriminate|]. cbn [enc_list].
  fold (enc_list f ids vs). intros H.
  destruct (f i v) as [a|] eqn:Ha; [|discriminate].
  destruct (enc_list f ids vs) as [b|] eqn:Hb; [|discriminate].
  injection H as <-. exists v, vs, a, b. auto.
Qed.

Lemma view_list_cons {A B} (f : A -> value -> option B) i ids v vs l :
  view_list f (i :: ids) (v :: vs) = Some l -> exists a b, f i v = Some a /\
  view_list f ids vs = Some b /\ l = a :: b.
Proof.
  cbn [view_list]. fold (view_list f ids vs). intros H.
  destruct (f i v) as [a|] eqn:Ha; [|discriminate].
  destruct (view_list f ids vs) as [b|] eqn:Hb; [|discriminate].
  injection H as <-. exists a, b. auto.
Qed.

Lemma enc_list_nil {A} (f : A -> value -> option bytes) vs bs :
  enc_list f [] vs = Some bs -> vs = [] /\ bs = [].
Proof. destruct vs; cbn; intros H; [injection H as <-; auto|discriminate]. Qed.

Lemma forget_pass c n : pass_label (c_hint c) (S (S n)) = c_hint (forget_hint c).
Proof. unfold pass_label, forget_hint. cbn [Nat.leb c_hint]. destruct (c_hint c); reflexivity. Qed.

Lemma fields_view_many c f1 f2 fields vs :
  fields_view types (c_hint c) (f1 :: f2 :: fields) vs = fview (forget_hint c) (f1 :: f2 :: fields) vs.
Proof. unfold fields_view, fview. cbn [List.length]. rewrite forget_pass. reflexivity. Qed.

Lemma tuple_view_many c i1 i2 ids vs :
  tuple_view types (c_hint c) (i1 :: i2 :: ids) vs = tview (forget_hint c) (i1 :: i2 :: ids) vs.
Proof. unfold tuple_view, tview. cbn [List.length]. rewrite forget_pass. reflexivity. Qed.

Section Body.
Variable dec : ty_input -> propagated -> M E parser_err (ext pdata).

Lemma fields_loop_sound (Hs : sound dec) fields : forall c pos e fs q e',
  fields_loop dec fields c pos e = (Ok fs, q, e') ->
  e' = e /\ exists vs bs, fenc c fields vs = Some bs /\ fview c fields vs = Some fs /\
    fcyc c fields vs = true /\ has data pos bs /\ q = (pos + List.length bs)%nat.
Proof.
  induction fields as [|f fields IH]; intros c pos e fs q e' H; cbn [fields_loop] in H.
  - apply ret_ok in H. destruct H as (-> & -> & ->). split; auto. exists [], [].
    repeat split. cbn. lia.
  - inv_bind H. apply lift_p_ok in H0. destruct H0 as (H0 & -> & ->).
    apply for_field_ok in H0. destruct H0 as (Hf & ->).
    inv_bind H. apply Hs in H0; [|exact I]. destruct H0 as (-> & l & Hl & v & b1 & He & Hv & Hn & Hh & ->).
    cbn [with_checker checker_of info_of ty_id compact_at c_hint cycle_check app] in *.
    inv_bind H. apply IH in H0. destruct H0 as (-> & vs & b2 & He2 & Hv2 & Hn2 & Hh2 & ->).
    apply ret_ok in H. destruct H as (-> & -> & ->). split; auto.
    exists (v :: vs), (b1 ++ b2). repeat split.
    + unfold fenc in *. cbn [enc_list]. rewrite He, He2. reflexivity.
    + unfold fview in *. cbn [view_list]. rewrite Hv. cbn [option_map]. rewrite Hv2.
      unfold field_form. cbn [fst snd]. destruct a as [xd xi]. cbn [x_data x_info] in *. subst xi. reflexivity.
    + unfold fcyc in *. cbn [all2]. rewrite Hf, Hn, Hn2. reflexivity.
    + apply has_app. auto.
    + rewrite app_length. lia.
Qed.

Lemma fields_loop_complete (Hc : complete dec) fields : forall c pos e fs vs bs,
  fenc c fields vs = Some bs -> fview c fields vs = Some fs -> fcyc c fields vs = true ->
  has data pos bs ->
  okf (fields_loop dec fields c) pos e fs (pos + List.length bs).
Proof.
  induction fields as [|f fields IH]; intros c pos e fs vs bs He Hv Hn Hh; cbn [fields_loop].
  - apply enc_list_nil in He. destruct He as [-> ->]. injection Hv as <-.
    cbn [List.length]. rewrite Nat.add_0_r. apply okf_ret.
  - apply enc_list_cons in He. destruct He as (v & vs' & b1 & b2 & -> & He1 & He2 & ->).
    unfold fview in Hv. apply view_list_cons in Hv. destruct Hv as (x & fs' & Hx & Hv2 & ->).
    unfold fcyc in Hn. cbn [all2] in Hn. apply andb_true_iff in Hn. destruct Hn as [Hn1 Hn2].
    apply andb_true_iff in Hn1. destruct Hn1 as [Hf Hn1].
    apply has_app in Hh. destruct Hh as [Hh1 Hh2].
    destruct (view false (or_label (c_hint c) (field_label f)) (f_ty f) v) as [[d l]|] eqn:Hv1; [|discriminate].
    injection Hx as <-.
    eapply okf_bind; [apply okf_ok, lift_p_ok; split; [apply for_field_ok; eauto|auto]|].
    eapply okf_bind.
    { apply Hc; [exact I|]. exists v, b1. cbn [with_checker checker_of compact_at c_hint cycle_check ty_id].
      repeat split; eauto. }
    eapply okf_bind; [eapply IH; eauto|].
    cbn [with_checker info_of app]. rewrite app_length, Nat.add_assoc. apply okf_ret.
Qed.

Lemma tuple_loop_sound (Hs : sound dec) ids : forall c pos e fs q e',
  tuple_loop reg dec ids c pos e = (Ok fs, q, e') ->
  e' = e /\ exists vs bs, tenc c ids vs = Some bs /\ tview c ids vs = Some fs /\
    tcyc c ids vs = true /\ has data pos bs /\ q = (pos + List.length bs)%nat.
Proof.
  induction ids as [|i ids IH]; intros c pos e fs q e' H; cbn [tuple_loop] in H.
  - apply ret_ok in H. destruct H as (-> & -> & ->). split; auto. exists [], [].
    repeat split. cbn. lia.
  - inv_bind H. apply resolve_portable_ok in H0. destruct H0 as (Hlk & -> & ->).
    inv_bind H. apply lift_p_ok in H0. destruct H0 as (H0 & -> & ->).
    apply for_ty_ok in H0. destruct H0 as (Hf & ->).
    inv_bind H. apply Hs in H0; [|exact Hlk]. destruct H0 as (-> & l & Hl & v & b1 & He & Hv & Hn & Hh & ->).
    cbn [with_checker checker_of info_of ty_id compact_at c_hint cycle_check app] in *.
    inv_bind H. apply IH in H0. destruct H0 as (-> & vs & b2 & He2 & Hv2 & Hn2 & Hh2 & ->).
    apply ret_ok in H. destruct H as (-> & -> & ->). split; auto.
    exists (v :: vs), (b1 ++ b2). repeat split.
    + unfold tenc in *. cbn [enc_list]. rewrite He, He2. reflexivity.
    + unfold tview in *. cbn [view_list]. rewrite Hlk, Hv. cbn [option_map]. rewrite Hv2.
      cbn [fst snd]. destruct a0 as [xd xi]. cbn [x_data x_info] in *. subst xi. reflexivity.
    + unfold tcyc in *. cbn [all2]. rewrite Hf, Hn, Hn2. reflexivity.
    + apply has_app. auto.
    + rewrite app_length. lia.
Qed.

Lemma tuple_loop_complete (Hc : complete dec) ids : forall c pos e fs vs bs,
  tenc c ids vs = Some bs -> tview c ids vs = Some fs -> tcyc c ids vs = true ->
  has data pos bs ->
  okf (tuple_loop reg dec ids c) pos e fs (pos + List.length bs).
Proof.
  induction ids as [|i ids IH]; intros c pos e fs vs bs He Hv Hn Hh; cbn [tuple_loop].
  - apply enc_list_nil in He. destruct He as [-> ->]. injection Hv as <-.
    cbn [List.length]. rewrite Nat.add_0_r. apply okf_ret.
  - apply enc_list_cons in He. destruct He as (v & vs' & b1 & b2 & -> & He1 & He2 & ->).
    unfold tview in Hv. apply view_list_cons in Hv. destruct Hv as (x & fs' & Hx & Hv2 & ->).
    unfold tcyc in Hn. cbn [all2] in Hn. apply andb_true_iff in Hn. destruct Hn as [Hn1 Hn2].
    apply andb_true_iff in Hn1. destruct Hn1 as [Hf Hn1].
    apply has_app in Hh. destruct Hh as [Hh1 Hh2].
    destruct (lookup i) as [t|] eqn:Hlk; [|discriminate].
    destruct (view false (or_label (c_hint c) (path_label t)) i v) as [[d l]|] eqn:Hv1; [|discriminate].
    injection Hx as <-.
    eapply okf_bind; [apply okf_ok, resolve_portable_ok; eauto|].
    eapply okf_bind; [apply okf_ok, lift_p_ok; split; [apply for_ty_ok; eauto|auto]|].
    eapply okf_bind.
    { apply Hc; [exact Hlk|]. exists v, b1. cbn [with_checker checker_of compact_at c_hint cycle_check ty_id].
      repeat split; eauto. }
    eapply okf_bind; [eapply IH; eauto|].
    cbn [with_checker info_of app]. rewrite app_length, Nat.add_assoc. apply okf_ret.
Qed.

(** Elements of vectors. *)
Lemma elements_loop_sound (Hs : sound dec) seen el l hu n :
  lookup (hu_id hu) = Some (hu_ty hu) ->
  chain types seen false HNone el l (cycle_check (hu_checker hu))
     (is_some (compact_at (hu_checker hu))) (c_hint (hu_checker hu)) (hu_id hu) ->
  forall pos e ds q e', elements_loop dec n hu pos e = (Ok ds, q, e') ->
  e' = e /\ exists vs bs, enc_all (enc false el) vs = Some bs /\ elems_view types el vs = Some ds /\
    allv (nocyc (seen ++ [el]) el) vs = true /\ List.length vs = n /\
    has data pos bs /\ q = (pos + List.length bs)%nat.
Proof.
  intros Hlk Hch. induction n as [|n IH]; intros pos e ds q e' H; cbn [elements_loop] in H.
  - apply ret_ok in H. destruct H as (-> & -> & ->). split; auto. exists [], [].
    repeat split. cbn. lia.
  - inv_bind H. apply Hs in H0; [|exact Hlk]. destruct H0 as (-> & li & Hl & vf & b1 & He & Hv & Hn & Hh & ->).
    cbn [with_checker checker_of info_of ty_id app] in *.
    destruct (chain_wrap _ _ _ _ _ _ _ _ _ _ Hch _ _ _ _ He Hv Hn) as (v & l' & He1 & Hv1 & Hn1).
    inv_bind H. apply IH in H0. destruct H0 as (-> & vs & b2 & He2 & Hv2 & Hn2 & Hlen & Hh2 & ->).
    apply ret_ok in H. destruct H as (-> & -> & ->). split; auto.
    exists (v :: vs), (b1 ++ b2). repeat split.
    + cbn [enc_all]. rewrite He1, He2. reflexivity.
    + cbn [elems_view]. rewrite Hv1, Hv2. reflexivity.
    + cbn [allv]. rewrite Hn1, Hn2. reflexivity.
    + cbn [List.length]. lia.
    + apply has_app. auto.
    + rewrite app_length. lia.
Qed.

Lemma elements_loop_complete (Hc : complete dec) seen el l hu :
  lookup (hu_id hu) = Some (hu_ty hu) ->
  chain types seen false HNone el l (cycle_check (hu_checker hu))
     (is_some (compact_at (hu_checker hu))) (c_hint (hu_checker hu)) (hu_id hu) ->
  forall vs pos e ds bs, enc_all (enc false el) vs = Some bs -> elems_view types el vs = Some ds ->
    allv (nocyc (seen ++ [el]) el) vs = true -> has data pos bs ->
  okf (elements_loop dec (List.length vs) hu) pos e ds (pos + List.length bs).
Proof.
  intros Hlk Hch. induction vs as [|v vs IH]; intros pos e ds bs He Hv Hn Hh; cbn [elements_loop List.length].
  - injection He as <-. injection Hv as <-. cbn [List.length]. rewrite Nat.add_0_r. apply okf_ret.
  - cbn [enc_all] in He. destruct (enc false el v) as [b1|] eqn:He1; [|discriminate].
    fold (enc_all (enc false el)) in He.
    destruct (enc_all (enc false el) vs) as [b2|] eqn:He2; [|discriminate]. injection He as <-.
    cbn [elems_view] in Hv. destruct (view true HNone el v) as [[d l']|] eqn:Hv1; [|discriminate].
    fold (elems_view types el) in Hv.
    destruct (elems_view types el vs) as [ds'|] eqn:Hv2; [|discriminate]. injection Hv as <-.
    cbn [allv] in Hn. apply andb_true_iff in Hn. destruct Hn as [Hn1 Hn2].
    apply has_app in Hh. destruct Hh as [Hh1 Hh2].
    destruct (chain_unwrap _ _ _ _ _ _ _ _ _ _ Hch _ _ _ _ He1 Hv1 Hn1) as (vf & li & He3 & Hv3 & Hn3).
    eapply okf_bind.
    { apply Hc; [exact Hlk|]. exists vf, b1. cbn [with_checker checker_of ty_id]. repeat split; eauto. }
    eapply okf_bind; [eapply IH; eauto|].
    cbn [x_data]. rewrite app_length, Nat.add_assoc. apply okf_ret.
Qed.

Lemma sequence_of_nil inf : sequence_of inf [] = DSequenceRaw inf [].
Proof. reflexivity. Qed.

Lemma decode_elements_sound (Hs : sound dec) el n p pos e x q e' :
  decode_elements_set reg dec el n p pos e = (Ok x, q, e') ->
  e' = e /\ compact_at (checker_of p) = None /\ x_info x = info_of p /\
  exists vs bs inf ds fin, enc_all (enc false el) vs = Some bs /\ elems_view types el vs = Some ds /\
    peel_from types (cycle_check (checker_of p)) el = Some (inf, fin) /\
    allv (nocyc (cycle_check (checker_of p) ++ [el]) el) vs = true /\
    N.of_nat (List.length vs) = n /\ x_data x = sequence_of inf ds /\
    has data pos bs /\ q = (pos + List.length bs)%nat.
Proof.
  unfold decode_elements_set. intros H. inv_bind H. apply reject_compact_m_ok in H0.
  destruct H0 as (Hc & -> & ->). inv_bind H. apply map_err_ok in H0.
  apply husk_type_chain in H0. destruct H0 as (-> & -> & Hlk & Hch).
  pose proof (chain_peel_from _ _ _ _ _ _ _ _ _ Hch) as Hp.
  destruct (N.eqb_spec n 0) as [-> | Hn0].
  - apply ret_ok in H. destruct H as (-> & -> & ->). repeat split; auto.
    exists [], [], (hu_info a0), [], (hu_id a0). repeat split; auto.
  - inv_bind H. eapply elements_loop_sound in H0; eauto.
    destruct H0 as (-> & vs & bs & He & Hv & Hn & Hlen & Hh & ->).
    apply ret_ok in H. destruct H as (-> & -> & ->). repeat split; auto.
    exists vs, bs, (hu_info a0), a1, (hu_id a0). repeat split; auto; [lia|].
    cbn [x_data]. rewrite wrap_sequence_collect. reflexivity.
Qed.

Lemma decode_elements_complete (Hc : complete dec) el p pos e vs bs inf ds fin :
  compact_at (checker_of p) = None ->
  enc_all (enc false el) vs = Some bs -> elems_view types el vs = Some ds ->
  peel_from types (cycle_check (checker_of p)) el = Some (inf, fin) ->
  allv (nocyc (cycle_check (checker_of p) ++ [el]) el) vs = true -> has data pos bs ->
  okf (decode_elements_set reg dec el (N.of_nat (List.length vs)) p) pos e
      (Ext (sequence_of inf ds) (info_of p)) (pos + List.length bs).
Proof.
  intros Hcp He Hv Hp Hn Hh. unfold decode_elements_set.
  eapply okf_bind; [apply okf_reject; eauto|]. cbv beta.
  pose proof Hp as Hp1. unfold peel_from in Hp1.
  destruct (peel_chain _ _ _ _ HNone _ _ _ Hp1) as (s' & c' & h' & Hch).
  destruct (chain_husk_type types (E := E) (checker_of p) _ _ _ _ _ _ Hch) as (cat & tf & Hcat & Hlf & Hok).
  eapply okf_bind; [apply okf_map_err, Hok|]. cbn [hu_info].
  destruct (N.eqb_spec (N.of_nat (List.length vs)) 0) as [H0|H0].
  - destruct vs; [|cbn in H0; lia]. injection He as <-. injection Hv as <-.
    rewrite sequence_of_nil. cbn [List.length]. rewrite Nat.add_0_r. apply okf_ret.
  - rewrite Nat2N.id. eapply okf_bind.
    { eapply elements_loop_complete with (seen := cycle_check (checker_of p)) (el := el) (l := inf);
        cbn [hu_id hu_ty hu_checker cycle_check compact_at c_hint]; eauto.
      rewrite Hcat. exact Hch. }
    rewrite wrap_sequence_collect. apply okf_ret.
Qed.

(** Enum fields. *)
Lemma pass_label_none n : pass_label HNone n = HNone.
Proof. unfold pass_label. destruct (Nat.leb 2 n); reflexivity. Qed.

Lemma decode_fields_sound (Hs : sound dec) fields c pos e fs q e' :
  decode_fields dec fields c pos e = (Ok fs, q, e') ->
  e' = e /\ (is_some (compact_at c) && Nat.leb 2 (List.length fields) = false)%bool /\
  exists vs bs, fenc c fields vs = Some bs /\ fields_view types (c_hint c) fields vs = Some fs /\
    fcyc c fields vs = true /\ has data pos bs /\ q = (pos + List.length bs)%nat.
Proof.
  intros H. destruct fields as [|f1 [|f2 fields]].
  - cbn [decode_fields List.length Nat.leb] in *. rewrite andb_false_r.
    apply (fields_loop_sound Hs) in H. destruct H as (-> & H). auto.
  - cbn [decode_fields List.length Nat.leb] in *. rewrite andb_false_r.
    apply (fields_loop_sound Hs) in H. destruct H as (-> & H). auto.
  - cbn [decode_fields List.length Nat.leb] in *. inv_bind H. apply reject_compact_m_ok in H0.
    destruct H0 as (Hc & -> & ->).
    apply (fields_loop_sound Hs) in H. destruct H as (-> & vs & bs & He & Hv & Hn & H).
    split; auto. rewrite Hc. split; [reflexivity|]. exists vs, bs.
    split; [exact He|]. split; [|split; [exact Hn|exact H]].
    rewrite fields_view_many. exact Hv.
Qed.

Lemma decode_fields_complete (Hc : complete dec) fields c pos e fs vs bs :
  (is_some (compact_at c) && Nat.leb 2 (List.length fields) = false)%bool ->
  fenc c fields vs = Some bs -> fields_view types (c_hint c) fields vs = Some fs ->
  fcyc c fields vs = true -> has data pos bs ->
  okf (decode_fields dec fields c) pos e fs (pos + List.length bs).
Proof.
  intros Hg He Hv Hn Hh. destruct fields as [|f1 [|f2 fields]].
  - cbn [decode_fields]. eapply fields_loop_complete; eauto.
  - cbn [decode_fields]. eapply fields_loop_complete; eauto.
  - cbn [decode_fields List.length Nat.leb] in *. rewrite andb_true_r in Hg. apply is_some_false in Hg.
    eapply okf_bind; [apply okf_reject; eauto|]. rewrite fields_view_many in Hv.
    eapply fields_loop_complete with (c := forget_hint c); eauto.
Qed.

(** Enums. *)
Lemma decode_variant_sound (Hs : sound dec) variants pos e x q e' :
  decode_variant buf dec variants pos e = (Ok x, q, e') ->
  e' = e /\ exists i var vs bs fs, nth_error data pos = Some i /\ by_index variants i = Some var /\
    enc_list (fun f => enc false (f_ty f)) (v_fields var) vs = Some bs /\
    fields_view types HNone (v_fields var) vs = Some fs /\
    all2 (fun f v => nocyc [f_ty f] (f_ty f) v) (v_fields var) vs = true /\
    has data (pos + 1) bs /\ q = (pos + 1 + List.length bs)%nat /\
    x = VData (v_name var) (docs_text (v_docs var)) fs.
Proof.
  unfold decode_variant. intros H. inv_bind H. apply get_pos_ok in H0. destruct H0 as (-> & -> & ->).
  inv_bind H. apply pick_variant_ok in H0. destruct H0 as (-> & -> & i & Hi & Hv).
  inv_bind H. apply set_pos_ok in H0. destruct H0 as (_ & -> & ->).
  inv_bind H. apply (decode_fields_sound Hs) in H0.
  destruct H0 as (-> & _ & vs & bs & He & Hvw & Hn & Hh & ->).
  apply ret_ok in H. destruct H as (-> & -> & ->). split; auto.
  exists i, a, vs, bs, a1. repeat split; auto.
Qed.

Lemma decode_variant_complete (Hc : complete dec) variants pos e i var vs bs fs :
  nth_error data pos = Some i -> by_index variants i = Some var ->
  enc_list (fun f => enc false (f_ty f)) (v_fields var) vs = Some bs ->
  fields_view types HNone (v_fields var) vs = Some fs ->
  all2 (fun f v => nocyc [f_ty f] (f_ty f) v) (v_fields var) vs = true ->
  has data (pos + 1) bs ->
  okf (decode_variant buf dec variants) pos e (VData (v_name var) (docs_text (v_docs var)) fs)
    (pos + 1 + List.length bs).
Proof.
  intros Hi Hv He Hvw Hn Hh. unfold decode_variant. apply get_pos_bind.
  eapply okf_bind; [apply okf_ok, pick_variant_ok; eauto|].
  eapply okf_bind; [left; reflexivity|].
  eapply okf_bind; [eapply decode_fields_complete with (c := checker_new); eauto|].
  rewrite collect_docs_spec. apply okf_ret.
Qed.

(** ** Types decoded by their definition *)

(** The variant at the position is not a bare signature or a pallet item. *)
Definition ordinary (t : ty) (pos : nat) : Prop :=
  forall variants i var, t_def t = TVariant variants -> nth_error data pos = Some i ->
  by_index variants i = Some var ->
  variant_sig types t var = None /\ pallet_items types t var = None.

Lemma has_byte pos i l : is_bytes data -> nth_error data pos = Some i -> has data (pos + 1) l ->
  has data pos (i :: l) /\ (i <? 256)%N = true.
Proof.
  intros Hb Hi Hh. assert (Hx : has data pos (i :: l)) by (apply has_cons; auto).
  split; auto. pose proof (has_is_bytes _ _ _ Hb Hx) as H. inversion H; subst. apply N.ltb_lt. auto.
Qed.

Lemma decode_plain_sound (Hs : sound dec) t id p pos e x q e' :
  lookup id = Some t -> def_of t = Some (t_def t) -> ordinary t pos ->
  decode_plain buf reg dec t id p pos e = (Ok x, q, e') ->
  e' = e /\ exists l, x_info x = info_of p ++ l /\
    rel (checker_of p) id pos (x_data x) (own_info t ++ l) q.
Proof.
  intros Hl Hd Ho. unfold decode_plain.
  destruct (t_def t) as [fields|variants|el|len el|ids|pr|inner|store order] eqn:Hdef; intros H.
  - (* struct *)
    inv_bind H. apply (decode_fields_sound Hs) in H0.
    destruct H0 as (-> & Hg & vs & bs & He & Hv & Hn & Hh & ->).
    apply ret_ok in H. destruct H as (-> & -> & ->). split; auto.
    exists []. rewrite !app_nil_r. split; auto. exists (VStruct vs), bs. repeat split; auto.
    + cbn [Spec.enc]. rewrite Hl, Hd, Hg. exact He.
    + rewrite (view_struct _ _ _ _ _ _ _ Hl Hd), Hv. reflexivity.
    + cbn [ProofPeel.nocyc]. rewrite Hl, Hd. exact Hn.
  - (* enum *)
    inv_bind H. apply reject_compact_m_ok in H0. destruct H0 as (Hc & -> & ->).
    destruct variants as [|v0 variants0].
    + apply ret_ok in H. destruct H as (-> & -> & ->). split; auto. exists []. rewrite !app_nil_r.
      split; auto. exists VNever, []. rewrite Hc. cbn [is_some]. repeat split.
      * cbn [Spec.enc]. rewrite Hl, Hd. reflexivity.
      * cbn [Spec.view]. rewrite Hl. reflexivity.
      * cbn [ProofPeel.nocyc]. rewrite Hl. reflexivity.
      * cbn. lia.
    + remember (v0 :: variants0) as variants eqn:Hvs. clear Hvs.
      inv_bind H. apply (decode_variant_sound Hs) in H0.
      destruct H0 as (-> & i & var & vs & bs & fs & Hi & Hv & He & Hvw & Hn & Hh & -> & ->).
      apply ret_ok in H. destruct H as (-> & -> & ->). split; auto. exists []. rewrite !app_nil_r.
      split; auto.
      destruct (Ho _ _ _ Hdef Hi Hv) as [Hsig Hit].
      destruct (has_byte _ _ _ Hbytes Hi Hh) as [Hh' Hb].
      exists (VEnum i vs), (i :: bs). rewrite Hc. cbn [is_some]. repeat split; auto.
      * cbn [Spec.enc]. rewrite Hl, Hd, Hv, Hsig, Hit, Hb. cbn [negb andb]. rewrite He. reflexivity.
      * rewrite (view_enum _ _ _ _ _ _ _ _ _ Hl Hd Hv), Hvw. reflexivity.
      * cbn [ProofPeel.nocyc]. rewrite Hl, Hd, Hv. exact Hn.
      * cbn [List.length]. lia.
  - (* vector *)
    inv_bind H. apply get_compact_has in H0; auto. destruct H0 as (-> & Hf & -> & Hh0).
    apply (decode_elements_sound Hs) in H.
    destruct H as (-> & Hc & Hx & vs & bs & inf & ds & fin & He & Hv & Hp & Hn & Hlen & Hxd & Hh & ->).
    cbn [checker_of info_of drop_cycle_check compact_at cycle_check app] in *.
    split; auto. exists []. rewrite !app_nil_r. split; auto.
    exists (VSeq vs), (compact_enc a ++ bs). rewrite Hc. cbn [is_some]. repeat split.
    + cbn [Spec.enc]. rewrite Hl, Hd, Hlen, Hf. cbn [negb andb]. rewrite He. reflexivity.
    + rewrite (view_seq _ _ _ _ _ _ _ Hl Hd). unfold seq_view. rewrite Hp, Hv, Hxd. reflexivity.
    + cbn [ProofPeel.nocyc]. rewrite Hl, Hd, Hp, Hn. reflexivity.
    + apply has_app. auto.
    + rewrite app_length. lia.
  - (* array *)
    apply (decode_elements_sound Hs) in H.
    destruct H as (-> & Hc & Hx & vs & bs & inf & ds & fin & He & Hv & Hp & Hn & Hlen & Hxd & Hh & ->).
    split; auto. exists []. rewrite !app_nil_r. split; auto.
    exists (VArr vs), bs. rewrite Hc. cbn [is_some]. repeat split; auto.
    + cbn [Spec.enc]. rewrite Hl, Hd, Hlen, N.eqb_refl. exact He.
    + rewrite (view_arr _ _ _ _ _ _ _ _ Hl Hd). unfold seq_view.
      rewrite (peel_from_mono _ _ _ _ Hp), Hv, Hxd. reflexivity.
    + cbn [ProofPeel.nocyc]. rewrite Hl, Hd, Hp, Hn. reflexivity.
  - (* tuple *)
    assert (Hx : e' = e /\ (is_some (compact_at (checker_of p)) && Nat.leb 2 (List.length ids) = false)%bool /\
      exists l, x = Ext (DTuple l) (info_of p) /\
      exists vs bs, tenc (checker_of p) ids vs = Some bs /\
        tuple_view types (c_hint (checker_of p)) ids vs = Some l /\ tcyc (checker_of p) ids vs = true /\
        has data pos bs /\ q = (pos + List.length bs)%nat).
    { destruct ids as [|i1 [|i2 ids]].
      - inv_bind H. apply (tuple_loop_sound Hs) in H0. destruct H0 as (-> & vs & bs & H0).
        apply ret_ok in H. destruct H as (-> & -> & ->). cbn [List.length Nat.leb]. rewrite andb_false_r.
        repeat split; auto. eexists. split; [reflexivity|]. exists vs, bs. exact H0.
      - inv_bind H. apply (tuple_loop_sound Hs) in H0. destruct H0 as (-> & vs & bs & H0).
        apply ret_ok in H. destruct H as (-> & -> & ->). cbn [List.length Nat.leb]. rewrite andb_false_r.
        repeat split; auto. eexists. split; [reflexivity|]. exists vs, bs. exact H0.
      - inv_bind H. apply reject_compact_m_ok in H0. destruct H0 as (Hc & -> & ->).
        inv_bind H. apply (tuple_loop_sound Hs) in H0. destruct H0 as (-> & vs & bs & H0).
        apply ret_ok in H. destruct H as (-> & -> & ->). rewrite Hc.
        repeat split; auto. eexists. split; [reflexivity|]. exists vs, bs.
        rewrite tuple_view_many. exact H0. }
    destruct Hx as (-> & Hg & l & -> & vs & bs & He & Hv & Hn & Hh & ->).
    split; auto. exists []. rewrite !app_nil_r. split; auto.
    exists (VTuple vs), bs. repeat split; auto.
    + cbn [Spec.enc]. rewrite Hl, Hd, Hg. exact He.
    + rewrite (view_tuple _ _ _ _ _ _ _ Hl Hd), Hv. reflexivity.
    + cbn [ProofPeel.nocyc]. rewrite Hl, Hd. exact Hn.
  - (* primitive *)
    apply bind_ret_ok in H. destruct H as (d & -> & H).
    apply (decode_primitive_rel types data Hbytes _ _ _ _ _ _ _ _ _ Hl Hd) in H. destruct H as (-> & H).
    split; auto. exists []. rewrite !app_nil_r. split; auto.
  - (* compact *)
    inv_bind H. apply reject_compact_m_ok in H0. destruct H0 as (Hc & -> & ->).
    inv_bind H. apply lift_p_ok in H0. destruct H0 as (H0 & -> & ->).
    apply check_id_ok in H0. destruct H0 as (Hf & ->).
    apply Hs in H; [|exact I].
    destruct H as (-> & l & Hx & v & bs & He & Hv & Hn & Hh & ->).
    cbn [checker_of info_of ty_id with_compact_at compact_at c_hint cycle_check is_some] in *.
    split; auto. exists l. split; auto. exists (VCompact v), bs. rewrite Hc. cbn [is_some]. repeat split; auto.
    + cbn [Spec.enc]. rewrite Hl, Hd. exact He.
    + rewrite (view_compact _ _ _ _ _ _ _ Hl Hd). cbn [andb]. rewrite Hv. reflexivity.
    + cbn [ProofPeel.nocyc]. rewrite Hl, Hd, Hf, Hn. reflexivity.
  - (* bits *)
    inv_bind H. apply reject_compact_m_ok in H0. destruct H0 as (Hc & -> & ->).
    apply bind_ret_ok in H. destruct H as (d & -> & H).
    apply (decode_bit_sequence_rel types data Hbytes _ _ _ _ _ _ _ _ _ _ Hl Hd Hc) in H. destruct H as (-> & H).
    split; auto. exists []. rewrite !app_nil_r. split; auto.
Qed.

Lemma decode_plain_complete (Hcm : complete dec) t id p pos e d l q :
  lookup id = Some t -> def_of t = Some (t_def t) -> ordinary t pos ->
  rel (checker_of p) id pos d l q ->
  exists l', l = own_info t ++ l' /\ okf (decode_plain buf reg dec t id p) pos e (Ext d (info_of p ++ l')) q.
Proof.
  intros Hl Hd Ho. unfold decode_plain.
  destruct (def_of_cases _ _ Hd) as [_ Hk].
  assert (Hinfo : (forall inner, t_def t <> TCompact inner) -> rel (checker_of p) id pos d l q ->
            (okf (decode_plain buf reg dec t id p) pos e (Ext d (info_of p)) q) ->
            exists l', l = own_info t ++ l' /\
              okf (decode_plain buf reg dec t id p) pos e (Ext d (info_of p ++ l')) q).
  { intros Hnc (v & bs & _ & Hv & _) Hok. exists []. rewrite !app_nil_r. split; auto.
    eapply view_info; eauto. intros inner. rewrite Hd. intros Heq. injection Heq as Heq. eapply Hnc, Heq. }
  unfold decode_plain in Hinfo.
  destruct (t_def t) as [fields|variants|el|len el|ids|pr|inner|store order] eqn:Hdef; intros H.
  - (* struct *)
    apply Hinfo; [discriminate|exact H|]. destruct H as (v & bs & He & Hv & Hn & Hh & ->).
    destruct v; cbn [Spec.enc] in He; rewrite Hl, ?Hd in He;
      try (destruct Hk as [Hk | [Hk | (it & Hk)]]; rewrite ?Hk in He; discriminate).
    rename l0 into vs.
    destruct (is_some (compact_at (checker_of p)) && Nat.leb 2 (List.length fields))%bool eqn:Hg; [discriminate|].
    rewrite (view_struct _ _ _ _ _ _ _ Hl Hd) in Hv.
    destruct (fields_view types (c_hint (checker_of p)) fields vs) as [fs|] eqn:Hfv; [|discriminate].
    injection Hv as <- <-. cbn [ProofPeel.nocyc] in Hn. rewrite Hl, Hd in Hn.
    eapply okf_bind; [eapply decode_fields_complete; eauto|]. apply okf_ret.
  - (* enum *)
    apply Hinfo; [discriminate|exact H|]. destruct H as (v & bs & He & Hv & Hn & Hh & ->).
    assert (Hcp : compact_at (checker_of p) = None).
    { apply is_some_false. destruct (is_some _); [|reflexivity]. exfalso.
      destruct v; cbn [Spec.enc] in He; rewrite Hl, ?Hd in He;
      try (destruct Hk as [Hk | [Hk | (it & Hk)]]; rewrite ?Hk in He; discriminate).
      - destruct (by_index variants i); [|discriminate].
        destruct (variant_sig types t v); [discriminate|]. destruct (pallet_items types t v); discriminate.
      - destruct variants; discriminate.
      - destruct (by_index variants i); [|discriminate].
        destruct (variant_sig types t v); discriminate.
      - destruct (by_index variants i); [|discriminate].
        destruct (pallet_items types t v) as [[? ?]|]; [|discriminate].
        destruct (by_index l1 j); discriminate. }
    rewrite Hcp in He. cbn [is_some] in He.
    eapply okf_bind; [apply okf_reject; eauto|]. cbv beta.
    destruct v; cbn [Spec.enc] in He; rewrite Hl, ?Hd in He;
      try (destruct Hk as [Hk | [Hk | (it & Hk)]]; rewrite ?Hk in He; discriminate).
    + rename l0 into vs. destruct (by_index variants i) as [var|] eqn:Hi; [|discriminate].
      destruct (variant_sig types t var); [discriminate|]. destruct (pallet_items types t var); [discriminate|].
      cbn [negb andb] in He. destruct (i <? 256)%N; [|discriminate].
      destruct (enc_list _ (v_fields var) vs) as [b|] eqn:He1; [|discriminate]. injection He as <-.
      rewrite (view_enum _ _ _ _ _ _ _ _ _ Hl Hd Hi) in Hv.
      destruct (fields_view types HNone (v_fields var) vs) as [fs|] eqn:Hfv; [|discriminate].
      injection Hv as <- <-. cbn [ProofPeel.nocyc] in Hn. rewrite Hl, Hd, Hi in Hn.
      apply has_cons in Hh. destruct Hh as [Hi1 Hh].
      destruct variants as [|v0 vs0]; [discriminate|].
      eapply okf_bind; [eapply decode_variant_complete; eauto|]. cbn [List.length].
      replace (pos + S (List.length b))%nat with (pos + 1 + List.length b)%nat by lia. apply okf_ret.
    + destruct variants; [|discriminate]. cbn [guard negb] in He. injection He as <-.
      cbn [Spec.view] in Hv. rewrite Hl in Hv. injection Hv as <- <-.
      cbn [List.length]. rewrite Nat.add_0_r. apply okf_ret.
    + exfalso. destruct (by_index variants i) as [var|] eqn:Hi; [|discriminate].
      destruct (variant_sig types t var) as [k|] eqn:Hsg; [|discriminate].
      apply guard_ok in He. destruct He as [_ ->]. apply has_cons in Hh. destruct Hh as [Hi1 _].
      destruct (Ho _ _ _ Hdef Hi1 Hi). congruence.
    + exfalso. destruct (by_index variants i) as [var|] eqn:Hi; [|discriminate].
      destruct (pallet_items types t var) as [[inn items]|] eqn:Hpi; [|discriminate].
      destruct (by_index items j) as [item|]; [|discriminate].
      destruct (_ && _)%bool; [|discriminate].
      destruct (enc_list _ _ _) as [b|]; [|discriminate]. injection He as <-.
      apply has_cons in Hh. destruct Hh as [Hi1 _].
      destruct (Ho _ _ _ Hdef Hi1 Hi). congruence.
  - (* vector *)
    apply Hinfo; [discriminate|exact H|]. destruct H as (v & bs & He & Hv & Hn & Hh & ->).
    destruct v; cbn [Spec.enc] in He; rewrite Hl, ?Hd in He;
      try (destruct Hk as [Hk | [Hk | (it & Hk)]]; rewrite ?Hk in He; discriminate).
    rename l0 into vs.
    destruct (negb _ && fits U32 _)%bool eqn:Hg; [|discriminate].
    apply andb_true_iff in Hg. destruct Hg as [Hg Hf]. apply negb_true_iff, is_some_false in Hg.
    destruct (enc_all (enc false el) vs) as [b|] eqn:He1; [|discriminate]. injection He as <-.
    rewrite (view_seq _ _ _ _ _ _ _ Hl Hd) in Hv. unfold seq_view in Hv.
    destruct (peel_from types [] el) as [[inf fin]|] eqn:Hp; [|discriminate].
    destruct (elems_view types el vs) as [ds|] eqn:Hev; [|discriminate]. injection Hv as <- <-.
    cbn [ProofPeel.nocyc] in Hn. rewrite Hl, Hd, Hp in Hn. cbn [is_some andb] in Hn.
    apply has_app in Hh. destruct Hh as [Hh1 Hh2].
    eapply okf_bind; [apply okf_ok, get_compact_has; eauto|]. cbv beta.
    rewrite app_length, Nat.add_assoc.
    eapply decode_elements_complete with (p := Propagated (drop_cycle_check (checker_of p)) (info_of p)); eauto.
  - (* array *)
    apply Hinfo; [discriminate|exact H|]. destruct H as (v & bs & He & Hv & Hn & Hh & ->).
    destruct v; cbn [Spec.enc] in He; rewrite Hl, ?Hd in He;
      try (destruct Hk as [Hk | [Hk | (it & Hk)]]; rewrite ?Hk in He; discriminate).
    rename l0 into vs.
    destruct (negb _ && _)%bool eqn:Hg; [|discriminate].
    apply andb_true_iff in Hg. destruct Hg as [Hg Hf]. apply negb_true_iff, is_some_false in Hg.
    apply N.eqb_eq in Hf. subst len.
    rewrite (view_arr _ _ _ _ _ _ _ _ Hl Hd) in Hv. unfold seq_view in Hv.
    cbn [ProofPeel.nocyc] in Hn. rewrite Hl, Hd in Hn. apply andb_true_iff in Hn. destruct Hn as [Hp1 Hn].
    destruct (peel_from types (cycle_check (checker_of p)) el) as [[inf fin]|] eqn:Hp; [|discriminate].
    rewrite (peel_from_mono _ _ _ _ Hp) in Hv.
    destruct (elems_view types el vs) as [ds|] eqn:Hev; [|discriminate]. injection Hv as <- <-.
    eapply decode_elements_complete; eauto.
  - (* tuple *)
    apply Hinfo; [discriminate|exact H|]. destruct H as (v & bs & He & Hv & Hn & Hh & ->).
    destruct v; cbn [Spec.enc] in He; rewrite Hl, ?Hd in He;
      try (destruct Hk as [Hk | [Hk | (it & Hk)]]; rewrite ?Hk in He; discriminate).
    rename l0 into vs.
    destruct (is_some (compact_at (checker_of p)) && Nat.leb 2 (List.length ids))%bool eqn:Hg; [discriminate|].
    rewrite (view_tuple _ _ _ _ _ _ _ Hl Hd) in Hv.
    destruct (tuple_view types (c_hint (checker_of p)) ids vs) as [fs|] eqn:Hfv; [|discriminate].
    injection Hv as <- <-. cbn [ProofPeel.nocyc] in Hn. rewrite Hl, Hd in Hn.
    destruct ids as [|i1 [|i2 ids]].
    + eapply okf_bind; [eapply tuple_loop_complete; eauto|]. apply okf_ret.
    + eapply okf_bind; [eapply tuple_loop_complete; eauto|]. apply okf_ret.
    + cbn [List.length Nat.leb] in Hg. rewrite andb_true_r in Hg. apply is_some_false in Hg.
      rewrite tuple_view_many in Hfv.
      eapply okf_bind; [apply okf_reject; eauto|]. cbv beta.
      eapply okf_bind; [eapply tuple_loop_complete with (c := forget_hint (checker_of p)); eauto|].
      apply okf_ret.
  - (* primitive *)
    apply Hinfo; [discriminate|exact H|].
    assert (Hli : l = own_info t).
    { destruct H as (v & bs & _ & Hv & _). eapply view_info; eauto. rewrite Hd. discriminate. }
    subst l. eapply okf_bind.
    + apply okf_ok. apply (decode_primitive_rel types data Hbytes _ _ _ _ _ _ _ _ _ Hl Hd). eauto.
    + apply okf_ret.
  - (* compact *)
    destruct H as (v & bs & He & Hv & Hn & Hh & ->).
    destruct v; cbn [Spec.enc] in He; rewrite Hl, ?Hd in He;
      try (destruct Hk as [Hk | [Hk | (it & Hk)]]; rewrite ?Hk in He; discriminate).
    destruct (is_some (compact_at (checker_of p))) eqn:Hg; [discriminate|]. apply is_some_false in Hg.
    rewrite (view_compact _ _ _ _ _ _ _ Hl Hd) in Hv. cbn [andb] in Hv.
    destruct (view false (c_hint (checker_of p)) inner v) as [[d1 l1]|] eqn:Hv1; [|discriminate].
    injection Hv as <- <-.
    cbn [ProofPeel.nocyc] in Hn. rewrite Hl, Hd in Hn. apply andb_true_iff in Hn. destruct Hn as [Hf Hn].
    exists l1. split; auto.
    eapply okf_bind; [apply okf_reject; eauto|]. cbv beta.
    eapply okf_bind; [apply okf_ok, lift_p_ok; split; [apply check_id_ok; eauto|auto]|].
    apply (Hcm (Symbol inner) (Propagated (Checker (Some id) (c_hint (checker_of p)) (cycle_check (checker_of p) ++ [inner])) (info_of p))); [exact I|]. exists v, bs.
    cbn [checker_of with_compact_at compact_at c_hint cycle_check is_some ty_id]. auto.
  - (* bits *)
    apply Hinfo; [discriminate|exact H|].
    assert (Hli : l = own_info t).
    { destruct H as (v & bs & _ & Hv & _). eapply view_info; eauto. rewrite Hd. discriminate. }
    assert (Hcp : compact_at (checker_of p) = None).
    { destruct H as (v & bs & He & _). apply is_some_false. destruct (is_some _); [|reflexivity]. exfalso.
      destruct v; cbn [Spec.enc] in He; rewrite Hl, ?Hd in He;
      try (destruct Hk as [Hk | [Hk | (it & Hk)]]; rewrite ?Hk in He; discriminate).
      destruct (bit_order_of types order); [|discriminate]. destruct (bit_store types store); discriminate. }
    subst l. eapply okf_bind; [apply okf_reject; eauto|]. cbv beta.
    eapply okf_bind.
    + apply okf_ok. apply (decode_bit_sequence_rel types data Hbytes _ _ _ _ _ _ _ _ _ _ Hl Hd Hcp). eauto.
    + apply okf_ret.
Qed.

(** ** All types *)

Lemma add_info_own p t : info_of (add_info p (info_from_ty t)) = info_of p ++ own_info t /\
  checker_of (add_info p (info_from_ty t)) = checker_of p.
Proof.
  unfold add_info. rewrite own_info_spec. destruct (info_is_empty (info_from_ty t)); cbn; auto.
  rewrite app_nil_r. auto.
Qed.

Lemma checked_none_plain t pos : fst (checked_of types t (nth_error data pos)) = CNone ->
  snd (checked_of types t (nth_error data pos)) = 0%nat /\ def_of t = Some (t_def t) /\ ordinary t pos.
Proof.
  unfold checked_of, def_of, ordinary. destruct (classify t) as [|k| | |k| |it] eqn:Hk; cbn [fst]; try discriminate.
  - intros _. repeat split; auto.
    + unfold variant_sig. rewrite Hk. reflexivity.
    + unfold pallet_items. rewrite Hk. destruct (v_fields var) as [|f [|]]; auto.
      destruct (Types.lookup types (f_ty f)) as [inn|]; auto. destruct (t_def inn); auto.
  - assert (Hp : forall var, pallet_items types t var = None).
    { intros var. unfold pallet_items. rewrite Hk. destruct (v_fields var) as [|f [|]]; auto.
      destruct (Types.lookup types (f_ty f)) as [inn|]; auto. destruct (t_def inn); auto. }
    destruct (t_def t) as [|vs| | | | | |]; try (intros _; repeat split; auto; discriminate).
    destruct (nth_error data pos) as [i|]; [|intros _; repeat split; auto; discriminate].
    destruct (by_index vs i) as [var|] eqn:Hi.
    + destruct (variant_sig types t var) eqn:Hv; cbn [fst]; [discriminate|]. intros _.
      repeat split; auto. congruence.
    + intros _. repeat split; auto; congruence.
  - assert (Hp : forall var, variant_sig types t var = None).
    { intros var. unfold variant_sig. rewrite Hk. reflexivity. }
    destruct (t_def t) as [|vs| | | | | |]; try (intros _; repeat split; auto; discriminate).
    destruct (nth_error data pos) as [i|]; [|intros _; repeat split; auto; discriminate].
    destruct (by_index vs i) as [var|] eqn:Hi.
    + destruct (pallet_items types t var) as [[? ?]|] eqn:Hv; cbn [fst]; [discriminate|]. intros _.
      repeat split; auto. congruence.
    + intros _. repeat split; auto; congruence.
Qed.

Lemma decode_body_sound (Hs : sound dec) : sound (decode_body buf reg dec).
Proof.
  intros inp p pos e x q e' Hg H. unfold decode_body in H. inv_bind H. destruct a as [t id].
  assert (Ht : lookup id = Some t /\ id = ty_id inp /\ p0 = pos /\ e0 = e).
  { destruct inp as [t0 id0|id0]; cbn [good ty_id] in *.
    - apply ret_ok in H0. destruct H0 as (Heq & -> & ->). injection Heq as -> ->. auto.
    - apply bind_ret_ok in H0. destruct H0 as (t1 & Heq & H0). injection Heq as -> ->.
      apply resolve_portable_ok in H0. destruct H0 as (Hl & -> & ->). auto. }
  destruct Ht as (Hl & <- & -> & ->). clear H0 Hg.
  destruct (add_info_own p t) as [Hi Hch].
  set (p1 := add_info p (info_from_ty t)) in *. clearbody p1.
  inv_bind H. apply checked_from_type_inv in H0. destruct H0 as (-> & Hk).
  destruct (fst (checked_of types t (nth_error data pos))) as [|k| | |pn pi vars item|k] eqn:Hfst;
    injection Hk as -> ->; cbn [decode_checked] in H.
  - (* by definition *)
    destruct (checked_none_plain _ _ Hfst) as (Hz & Hd & Ho). rewrite Hz, Nat.add_0_r in H.
    apply (decode_plain_sound Hs) in H; auto. destruct H as (-> & l & Hx & Hr).
    split; auto. exists (own_info t ++ l). rewrite Hx, Hi, Hch in *. rewrite app_assoc. auto.
  - (* raw *)
    apply bind_ret_ok in H. destruct H as (d & -> & H). apply parse_fixed_ok in H; auto.
    destruct H as (-> & Hc & b & -> & -> & Hh & Hb). split; auto. cbn [x_info x_data].
    exists (own_info t). split; auto. rewrite Hch in Hc.
    unfold checked_of in *. destruct (classify t) as [|k0| | |k0| |it] eqn:Hcl; try discriminate.
    + cbn [fst snd] in *. injection Hfst as ->. rewrite Nat.add_0_r in *.
      apply (special_rel types data _ _ _ _ _ _ _ Hl); rewrite Hcl; auto. split; auto. exists b. auto.
    + destruct (t_def t) as [|vs| | | | | |] eqn:Hdef; try discriminate.
      destruct (nth_error data pos) as [i|] eqn:Hn; [|discriminate].
      destruct (by_index vs i) as [var|] eqn:Hbi; [|discriminate].
      destruct (variant_sig types t var) as [k1|] eqn:Hsg; [|discriminate].
      cbn [fst snd] in *. injection Hfst as ->.
      destruct (has_byte _ _ _ Hbytes Hn Hh) as [Hh' Hb'].
      assert (Hd : def_of t = Some (TVariant vs)) by (unfold def_of; rewrite Hcl, Hdef; reflexivity).
      exists (VSig i b), (i :: b). rewrite Hc. cbn [is_some]. repeat split; auto.
      * cbn [Spec.enc]. rewrite Hl, Hd, Hbi, Hsg, Hb'. apply guard_ok. auto.
      * cbn [Spec.view]. rewrite Hl, Hd, Hbi, Hsg. reflexivity.
      * cbn [ProofPeel.nocyc]. rewrite Hl. reflexivity.
      * cbn [List.length]. lia.
    + destruct (t_def t) as [|vs| | | | | |]; try discriminate.
      destruct (nth_error data pos) as [i|]; [|discriminate].
      destruct (by_index vs i) as [var|]; [|discriminate].
      destruct (pallet_items types t var) as [[? ?]|]; discriminate.
  - (* era *)
    inv_bind H. apply reject_compact_m_ok in H0. destruct H0 as (Hc & -> & ->).
    apply bind_ret_ok in H. destruct H as (d & -> & H). apply special_case_era_ok in H; auto.
    destruct H as (v & -> & -> & Hv & Hh & ->). split; auto. cbn [x_info x_data].
    exists (own_info t). split; auto. rewrite Hch in Hc.
    unfold checked_of in *. destruct (classify t) as [|k0| | |k0| |it] eqn:Hcl; try discriminate.
    + cbn [fst snd] in *. rewrite Nat.add_0_r in *.
      apply (special_rel types data _ _ _ _ _ _ _ Hl); rewrite Hcl; auto. split; auto. exists v. auto.
    + exfalso. destruct (t_def t) as [|vs| | | | | |]; try discriminate.
      destruct (nth_error data pos) as [i|]; [|discriminate].
      destruct (by_index vs i) as [var|]; [|discriminate].
      destruct (variant_sig types t var); discriminate.
    + exfalso. destruct (t_def t) as [|vs| | | | | |]; try discriminate.
      destruct (nth_error data pos) as [i|]; [|discriminate].
      destruct (by_index vs i) as [var|]; [|discriminate].
      destruct (pallet_items types t var) as [[? ?]|]; discriminate.
  - (* hash *)
    inv_bind H. apply reject_compact_m_ok in H0. destruct H0 as (Hc & -> & ->).
    apply bind_ret_ok in H. destruct H as (d & -> & H). apply special_case_h256_ok in H; auto.
    destruct H as (-> & b & -> & -> & Hh & Hb). split; auto. cbn [x_info x_data].
    exists (own_info t). split; auto. rewrite Hch in *. rewrite hint_hash_spec.
    unfold checked_of in *. destruct (classify t) as [|k0| | |k0| |it] eqn:Hcl; try discriminate.
    + cbn [fst snd] in *. rewrite Nat.add_0_r in *.
      apply (special_rel types data _ _ _ _ _ _ _ Hl); rewrite Hcl; auto. split; auto. exists b. auto.
    + exfalso. destruct (t_def t) as [|vs| | | | | |]; try discriminate.
      destruct (nth_error data pos) as [i|]; [|discriminate].
      destruct (by_index vs i) as [var|]; [|discriminate].
      destruct (variant_sig types t var); discriminate.
    + exfalso. destruct (t_def t) as [|vs| | | | | |]; try discriminate.
      destruct (nth_error data pos) as [i|]; [|discriminate].
      destruct (by_index vs i) as [var|]; [|discriminate].
      destruct (pallet_items types t var) as [[? ?]|]; discriminate.
  - (* pallet item *)
    inv_bind H. apply reject_compact_m_ok in H0. destruct H0 as (Hc & -> & ->).
    inv_bind H. apply (decode_variant_sound Hs) in H0.
    destruct H0 as (-> & j & var2 & vs & bs & fs & Hj & Hv2 & He & Hvw & Hn2 & Hh & -> & ->).
    apply ret_ok in H. destruct H as (-> & -> & ->). split; auto. cbn [x_info x_data vd_docs vd_name vd_fields].
    exists (own_info t). split; auto. rewrite Hch in *.
    unfold checked_of in *. destruct (classify t) as [|k0| | |k0| |it] eqn:Hcl; try discriminate.
    + exfalso. destruct (t_def t) as [|vs0| | | | | |]; try discriminate.
      destruct (nth_error data pos) as [i|]; [|discriminate].
      destruct (by_index vs0 i) as [var|]; [|discriminate].
      destruct (variant_sig types t var); discriminate.
    + destruct (t_def t) as [|vs0| | | | | |] eqn:Hdef; try discriminate.
      destruct (nth_error data pos) as [i|] eqn:Hn; [|discriminate].
      destruct (by_index vs0 i) as [var|] eqn:Hbi; [|discriminate].
      destruct (pallet_items types t var) as [[inn items]|] eqn:Hpi; [|discriminate].
      cbn [fst snd] in *. injection Hfst as <- <- -> ->.
      destruct (has_byte _ _ _ Hbytes Hj Hh) as [Hh' Hb'].
      destruct (has_byte _ _ _ Hbytes Hn Hh') as [Hh2 Hb2].
      assert (Hd : def_of t = Some (TVariant vs0)) by (unfold def_of; rewrite Hcl, Hdef; reflexivity).
      exists (VItem i j vs), (i :: j :: bs). rewrite Hc. cbn [is_some]. repeat split; auto.
      * cbn [Spec.enc]. rewrite Hl, Hd, Hbi, Hpi, Hv2, Hb', Hb2. cbn [negb andb]. rewrite He. reflexivity.
      * rewrite (view_item _ _ _ _ _ _ _ _ _ _ _ _ _ Hl Hd Hbi Hpi Hv2), Hvw, Hcl.
        destruct item; reflexivity.
      * cbn [ProofPeel.nocyc]. rewrite Hl, Hd, Hbi, Hpi, Hv2. exact Hn2.
      * cbn [List.length]. lia.
  - (* per-thing *)
    apply bind_ret_ok in H. destruct H as (d & -> & H). apply parse_per_ok in H; auto.
    destruct H as (-> & n & bs & -> & Hh & -> & Hb). split; auto. cbn [x_info x_data].
    exists (own_info t). split; auto. rewrite Hch in *.
    unfold checked_of in *. destruct (classify t) as [|k0| | |k0| |it] eqn:Hcl; try discriminate.
    + cbn [fst snd] in *. injection Hfst as ->. rewrite Nat.add_0_r in *.
      apply (special_rel types data _ _ _ _ _ _ _ Hl); rewrite Hcl; auto. split; auto. exists n, bs. auto.
    + exfalso. destruct (t_def t) as [|vs| | | | | |]; try discriminate.
      destruct (nth_error data pos) as [i|]; [|discriminate].
      destruct (by_index vs i) as [var|]; [|discriminate].
      destruct (variant_sig types t var); discriminate.
    + exfalso. destruct (t_def t) as [|vs| | | | | |]; try discriminate.
      destruct (nth_error data pos) as [i|]; [|discriminate].
      destruct (by_index vs i) as [var|]; [|discriminate].
      destruct (pallet_items types t var) as [[? ?]|]; discriminate.
Qed.

Lemma okf_input inp pos (e : E) t : good inp -> lookup (ty_id inp) = Some t ->
  okf (match inp with
       | Resolved t0 id => ret (t0, id)
       | Symbol id => do t0 <- map_err PRegistry (resolve_ty reg id); ret (t0, id)
       end) pos e (t, ty_id inp) pos.
Proof.
  destruct inp as [t0 id|id]; cbn [good ty_id]; intros Hg Hl.
  - rewrite Hl in Hg. injection Hg as ->. apply okf_ret.
  - eapply okf_bind; [apply okf_ok, resolve_portable_ok; eauto|]. apply okf_ret.
Qed.

Lemma decode_body_complete (Hc : complete dec) : complete (decode_body buf reg dec).
Proof.
  intros inp p pos e d l q Hg Hr. unfold decode_body.
  assert (Hl : exists t, lookup (ty_id inp) = Some t).
  { destruct Hr as (v & bs & He & _). eapply enc_lookup, He. }
  destruct Hl as (t & Hl). eapply okf_bind; [apply okf_input; eauto|]. cbv beta iota.
  remember (ty_id inp) as id eqn:Hid. clear Hid Hg inp.
  destruct (add_info_own p t) as [Hi Hch].
  set (p1 := add_info p (info_from_ty t)) in *. clearbody p1.
  eapply okf_bind; [apply checked_from_type_okf|].
  assert (Hsp : match classify t with SpRaw _ | SpHash | SpEra | SpPer _ => True | _ => False end ->
     okf (decode_checked buf reg dec (fst (checked_of types t (nth_error data pos))) t id p1)
       (pos + snd (checked_of types t (nth_error data pos))) e (Ext d (info_of p ++ l)) q).
  { intros Hs. apply (special_rel types data (checker_of p) id t pos d l q Hl Hs) in Hr. destruct Hr as [-> Hr].
    rewrite <- Hi. rewrite <- Hch in Hr. unfold checked_of. destruct (classify t) as [|k| | |k| |it]; try contradiction;
      cbn [fst snd decode_checked]; rewrite Nat.add_0_r.
    - destruct Hr as (b & Hcp & Hb & -> & Hh & ->).
      eapply okf_bind; [apply okf_ok, parse_fixed_ok; auto|apply okf_ret].
      repeat split; auto. exists b. auto.
    - destruct Hr as (b & Hcp & Hb & -> & Hh & ->).
      eapply okf_bind; [apply okf_reject; auto|]. cbv beta.
      eapply okf_bind; [apply okf_ok, special_case_h256_ok; auto|rewrite ?hint_hash_spec; apply okf_ret].
      rewrite ?hint_hash_spec. split; auto. exists b. auto.
    - destruct Hr as (v & Hcp & Hv & -> & Hh & ->).
      eapply okf_bind; [apply okf_reject; auto|]. cbv beta.
      eapply okf_bind; [apply okf_ok, special_case_era_ok; auto|apply okf_ret].
      exists v. auto.
    - destruct Hr as (n & bs & -> & Hh & -> & Hb).
      eapply okf_bind; [apply okf_ok, parse_per_ok; auto|apply okf_ret].
      split; auto. exists n, bs. auto. }
  assert (Hpl : fst (checked_of types t (nth_error data pos)) = CNone ->
     okf (decode_checked buf reg dec (fst (checked_of types t (nth_error data pos))) t id p1)
       (pos + snd (checked_of types t (nth_error data pos))) e (Ext d (info_of p ++ l)) q).
  { intros Hn. rewrite Hn. destruct (checked_none_plain _ _ Hn) as (-> & Hd & Ho).
    rewrite Nat.add_0_r. cbn [decode_checked]. rewrite <- Hch in Hr.
    destruct (decode_plain_complete Hc t id p1 pos e d l q Hl Hd Ho Hr) as (l' & -> & Hok).
    rewrite Hi, <- app_assoc in Hok. exact Hok. }
  destruct (classify t) as [|k| | |k| |it] eqn:Hcl; try (apply Hsp; exact I).
  - apply Hpl. unfold checked_of. rewrite Hcl. reflexivity.
  - (* signatures *)
    destruct (fst (checked_of types t (nth_error data pos))) as [|k| | |pn pi vars item|k] eqn:Hfst;
      [apply Hpl; reflexivity| | | | |]; clear Hsp Hpl;
      unfold checked_of in *; rewrite Hcl in *;
      (destruct (t_def t) as [|vs| | | | | |] eqn:Hdef; try discriminate);
      (destruct (nth_error data pos) as [i|] eqn:Hn; [|discriminate]);
      (destruct (by_index vs i) as [var|] eqn:Hbi; [|discriminate]);
      (destruct (variant_sig types t var) as [k0|] eqn:Hsg; [|discriminate]); try discriminate.
    cbn [fst snd] in *. injection Hfst as ->.
    assert (Hd : def_of t = Some (TVariant vs)) by (unfold def_of; rewrite Hcl, Hdef; reflexivity).
    destruct Hr as (v & bs & He & Hv & _ & Hh & ->).
    assert (Hpi : pallet_items types t var = None).
    { unfold pallet_items. rewrite Hcl. destruct (v_fields var) as [|f [|]]; auto.
      destruct (Types.lookup types (f_ty f)) as [inn|]; auto. destruct (t_def inn); auto. }
    destruct v; cbn [Spec.enc] in He; rewrite Hl, ?Hd, ?Hcl in He; try discriminate.
    + destruct (by_index vs i0) as [var0|] eqn:Hi0; [|discriminate].
      destruct (variant_sig types t var0) eqn:Hsg0; [discriminate|].
      destruct (pallet_items types t var0); [discriminate|].
      destruct (_ && _)%bool; [|discriminate]. destruct (enc_list _ _ _); [|discriminate].
      injection He as <-. apply has_cons in Hh. destruct Hh as [Hh _]. exfalso. congruence.
    + destruct vs; discriminate.
    + destruct (by_index vs i0) as [var0|] eqn:Hi0; [|discriminate].
      destruct (variant_sig types t var0) as [k1|] eqn:Hsg0; [|discriminate].
      apply guard_ok in He. destruct He as [He ->]. apply has_cons in Hh. destruct Hh as [Hh1 Hh].
      assert (i0 = i) by congruence. subst i0. assert (var0 = var) by congruence. subst var0.
      assert (k1 = k) by congruence. subst k1.
      cbn [Spec.view] in Hv. rewrite Hl, Hd, Hbi, Hsg in Hv. injection Hv as <- <-.
      rewrite <- Hi. cbn [decode_checked].
      destruct (is_some (compact_at (checker_of p))) eqn:Hcp; [discriminate|]. apply is_some_false in Hcp.
      cbn [negb andb] in He. apply andb_true_iff in He. destruct He as [He He2].
      apply andb_true_iff in He. destruct He as [_ He].
      eapply okf_bind; [apply okf_ok, parse_fixed_ok; auto|].
      { split; auto. rewrite Hch. split; auto. exists l0. rewrite He, He2. auto. }
      cbn [List.length]. replace (pos + 1 + List.length l0)%nat with (pos + S (List.length l0))%nat by lia.
      apply okf_ret.
    + exfalso. destruct (by_index vs i0) as [var0|] eqn:Hi0; [|discriminate].
      assert (Hpi0 : pallet_items types t var0 = None).
      { unfold pallet_items. rewrite Hcl. destruct (v_fields var0) as [|f [|]]; auto.
        destruct (Types.lookup types (f_ty f)) as [inn|]; auto. destruct (t_def inn); auto. }
      rewrite Hpi0 in He. discriminate.
  - (* pallet items *)
    destruct (fst (checked_of types t (nth_error data pos))) as [|k| | |pn pi vars item|k] eqn:Hfst;
      [apply Hpl; reflexivity| | | | |]; clear Hsp Hpl;
      unfold checked_of in *; rewrite Hcl in *;
      (destruct (t_def t) as [|vs| | | | | |] eqn:Hdef; try discriminate);
      (destruct (nth_error data pos) as [i|] eqn:Hn; [|discriminate]);
      (destruct (by_index vs i) as [var|] eqn:Hbi; [|discriminate]);
      (destruct (pallet_items types t var) as [[inn items]|] eqn:Hpi; [|discriminate]); try discriminate.
    cbn [fst snd] in *. injection Hfst as <- <- <- <-.
    assert (Hd : def_of t = Some (TVariant vs)) by (unfold def_of; rewrite Hcl, Hdef; reflexivity).
    destruct Hr as (v & bs & He & Hv & Hnc & Hh & ->).
    assert (Hsig : forall var, variant_sig types t var = None) by (intros; unfold variant_sig; rewrite Hcl; reflexivity).
    destruct v; cbn [Spec.enc] in He; rewrite Hl, ?Hd, ?Hcl in He; try discriminate.
    + destruct (by_index vs i0) as [var0|] eqn:Hi0; [|discriminate].
      rewrite Hsig in He. destruct (pallet_items types t var0) eqn:Hpi0; [discriminate|].
      destruct (_ && _)%bool; [|discriminate]. destruct (enc_list _ _ _); [|discriminate].
      injection He as <-. apply has_cons in Hh. destruct Hh as [Hh _]. exfalso. congruence.
    + destruct vs; discriminate.
    + exfalso. destruct (by_index vs i0) as [var0|] eqn:Hi0; [|discriminate]. rewrite Hsig in He. discriminate.
    + destruct (by_index vs i0) as [var0|] eqn:Hi0; [|discriminate].
      destruct (pallet_items types t var0) as [[inn0 items0]|] eqn:Hpi0; [|discriminate].
      destruct (by_index items0 j) as [item|] eqn:Hj; [|discriminate].
      destruct (is_some (compact_at (checker_of p))) eqn:Hcp; [discriminate|]. apply is_some_false in Hcp.
      destruct (negb false && (i0 <? 256)%N && (j <? 256)%N)%bool; [|discriminate].
      destruct (enc_list _ (v_fields item) l0) as [b|] eqn:He1; [|discriminate]. injection He as <-.
      apply has_cons in Hh. destruct Hh as [Hh1 Hh]. apply has_cons in Hh. destruct Hh as [Hh2 Hh].
      assert (i0 = i) by congruence. subst i0. assert (var0 = var) by congruence. subst var0.
      assert (inn0 = inn) by congruence. subst inn0. assert (items0 = items) by congruence. subst items0.
      rewrite (view_item _ _ _ _ _ _ _ _ _ _ _ _ _ Hl Hd Hbi Hpi Hj), Hcl in Hv.
      destruct (fields_view types HNone (v_fields item) l0) as [fs|] eqn:Hfv; [|discriminate].
      injection Hv as <- <-. cbn [ProofPeel.nocyc] in Hnc. rewrite Hl, Hd, Hbi, Hpi, Hj in Hnc.
      cbn [decode_checked]. eapply okf_bind; [apply okf_reject; rewrite Hch; auto|]. cbv beta.
      eapply okf_bind; [eapply decode_variant_complete; eauto|].
      cbn [List.length vd_docs vd_name vd_fields].
      replace (pos + S (S (List.length b)))%nat with (pos + 1 + 1 + List.length b)%nat by lia.
      rewrite <- Hi. destruct it; apply okf_ret.
Qed.

End Body.

Theorem decode_sound fuel : sound (decode buf reg fuel).
Proof.
  induction fuel as [|fuel IH]; [|apply decode_body_sound, IH].
  intros inp p pos e x q e' _ H. discriminate.
Qed.

Theorem decode_complete fuel : complete (decode buf reg fuel).
Proof.
  induction fuel as [|fuel IH]; [|apply decode_body_complete, IH].
  intros inp p pos e d l q _ _. right. exists pos, e. reflexivity.
Qed.

End Main.
