(** Corollaries of soundness, completeness and safety for in-memory decoding. *)
From Coq Require Import Lia ZifyBool ZifyNat ZifyN Relations.
From Verif Require Import Base Compact Types Indicators Decode Spec Api ProofBase ProofLeaf ProofRead
  ProofTables ProofPeel ProofSpec ProofRel ProofMain SpecSource ProofSafe ProofSafe2 SpecWf ProofWf ProofFuel.
Local Open Scope list_scope.

Section Cor.
Variable types : list ty.

(** There is a value of type [id] encoded at [pos] up to [q] with this parsed form. *)
Definition reads (h : hint) (data : bytes) (id : N) (pos : nat) (x : ext pdata) (q : nat) : Prop :=
  exists v bs, enc types false id v = Some bs /\ view types false h id v = Some (x_data x, x_info x) /\
    nocyc types [] id v = true /\ has data pos bs /\ q = (pos + List.length bs)%nat.

Lemma hinted_returns h data id pos : returns (fst (decode_hinted h types data id pos)).
Proof.
  unfold decode_hinted.
  pose proof (decode_type_runs (slice_buffer data) (portable types) (good_slice data)
    (good_portable types) id (Propagated (Checker None h []) []) pos tt eq_refl) as H.
  destruct (decode_with_type _ _ _ _ _ _) as [[o q] e]. exact (runs_returns _ _ H).
Qed.

Lemma decode_at_hinted data id pos : decode_at types data id pos = decode_hinted HNone types data id pos.
Proof. reflexivity. Qed.

Lemma hinted_sound h data id pos x q : is_bytes data ->
  decode_hinted h types data id pos = (Ok x, q) -> reads h data id pos x q.
Proof.
  intros Hb. unfold decode_hinted, decode_with_type.
  destruct (decode _ _ _ _ _ _ _) as [[o q'] e'] eqn:Hd. intros H; injection H as -> ->.
  apply (decode_sound types data Hb) in Hd; [|exact I]. destruct Hd as (_ & l & Hl & v & bs & H).
  cbn [info_of app checker_of ty_id compact_at c_hint cycle_check is_some] in *. subst l.
  exists v, bs. exact H.
Qed.

Lemma hinted_complete h data id pos x q : is_bytes data ->
  reads h data id pos x q -> decode_hinted h types data id pos = (Ok x, q).
Proof.
  intros Hb (v & bs & H). pose proof (hinted_returns h data id pos) as Hr. revert Hr.
  unfold decode_hinted, decode_with_type.
  destruct (decode_complete types (E := unit) data Hb (decode_fuel (@slice_buffer unit data) (portable types)) (Symbol id)
    (Propagated (Checker None h []) []) pos tt (x_data x) (x_info x) q I) as [He|(q1 & e1 & He)].
  - exists v, bs. exact H.
  - rewrite He. destruct x; reflexivity.
  - rewrite He. cbn [fst]. intros [(a & Ha)|(a & Ha)]; discriminate.
Qed.

Lemma hinted_iff h data id pos x q : is_bytes data ->
  decode_hinted h types data id pos = (Ok x, q) <-> reads h data id pos x q.
Proof. intros Hb. split; [apply hinted_sound|apply hinted_complete]; exact Hb. Qed.

Lemma hinted_not_ok h data id pos : (forall x q, decode_hinted h types data id pos <> (Ok x, q)) ->
  exists x q, decode_hinted h types data id pos = (Err x, q).
Proof.
  intros H. pose proof (hinted_returns h data id pos) as Hr.
  destruct (decode_hinted h types data id pos) as [o q] eqn:Hd. cbn [fst] in Hr.
  destruct Hr as [(a & ->)|(a & ->)]; [exfalso; eapply H; reflexivity|eauto].
Qed.

Lemma returns_dec {X A} (o : outcome X A) : returns o -> (exists a, o = Ok a) \/ exists x, o = Err x.
Proof. auto. Qed.

(** *** C03 *)

Theorem round_trip_acyclic id v bs d l pre post :
  acyclic types -> enc types false id v = Some bs -> view types false HNone id v = Some (d, l) ->
  is_bytes (pre ++ post) ->
  decode_at types (pre ++ bs ++ post) id (List.length pre) =
    (Ok (Ext d l), (List.length pre + List.length bs)%nat).
Proof.
  intros Ha He Hv Hb. rewrite decode_at_hinted. apply hinted_complete.
  - apply is_bytes_app in Hb. destruct Hb. apply is_bytes_app. split; [assumption|].
    apply is_bytes_app. split; [eapply enc_bytes; eauto|assumption].
  - exists v, bs. repeat split; auto; [|apply has_mid].
    eapply acyclic_nocyc; eauto. intros c Hc. destruct Hc.
Qed.

Theorem round_trip id v bs pre post :
  well_formed types -> enc types false id v = Some bs -> is_bytes (pre ++ post) ->
  exists d l, view types false HNone id v = Some (d, l) /\
  decode_at types (pre ++ bs ++ post) id (List.length pre) =
    (Ok (Ext d l), (List.length pre + List.length bs)%nat).
Proof.
  intros Hw He Hb. destruct (view_total types (wf_acyclic _ Hw) Hw v _ _ _ He false HNone) as ([d l] & Hv).
  exists d, l. split; [exact Hv|]. eapply round_trip_acyclic; eauto. apply (wf_acyclic _ Hw).
Qed.

(** *** C04 *)

Theorem only_what_is_there data id pos x q : is_bytes data ->
  decode_at types data id pos = (Ok x, q) ->
  exists v, enc types false id v = Some (slice data pos (q - pos)) /\
    view types false HNone id v = Some (x_data x, x_info x) /\
    (q = pos + List.length (slice data pos (q - pos)))%nat.
Proof.
  intros Hb H. rewrite decode_at_hinted in H. apply hinted_sound in H; [|exact Hb].
  destruct H as (v & bs & He & Hv & _ & Hh & ->). unfold has in Hh.
  replace (pos + List.length bs - pos)%nat with (List.length bs) by lia. rewrite Hh.
  exists v. auto.
Qed.

(** *** C06 *)

Theorem locality data id pos x q pre post : is_bytes data -> is_bytes (pre ++ post) ->
  decode_at types data id pos = (Ok x, q) ->
  decode_at types (pre ++ slice data pos (q - pos) ++ post) id (List.length pre) =
    (Ok x, (List.length pre + (q - pos))%nat).
Proof.
  intros Hb Hpp H. rewrite decode_at_hinted in *. apply hinted_sound in H; [|exact Hb].
  destruct H as (v & bs & He & Hv & Hn & Hh & ->).
  replace (pos + List.length bs - pos)%nat with (List.length bs) by lia. unfold has in Hh. rewrite Hh.
  apply hinted_complete.
  - apply is_bytes_app in Hpp. destruct Hpp. apply is_bytes_app. split; [assumption|].
    apply is_bytes_app. split; [eapply enc_bytes; eauto|assumption].
  - exists v, bs. repeat split; auto. apply has_mid.
Qed.

(** *** C07 *)

Lemma has_firstn data n p bs : has (firstn n data) p bs -> has data p bs.
Proof.
  intros H. destruct (has_len _ _ _ H) as [->|Hl]; [reflexivity|].
  rewrite firstn_length in Hl. unfold has, slice in *. rewrite skipn_firstn_comm, firstn_firstn in H.
  rewrite Nat.min_l in H by lia. exact H.
Qed.

Theorem cut_fails data id pos x q n : is_bytes data -> decode_at types data id pos = (Ok x, q) ->
  (pos < q)%nat -> (n < q)%nat ->
  exists y q', decode_at types (firstn n data) id pos = (Err y, q').
Proof.
  intros Hb H Hp Hn. rewrite !decode_at_hinted in *. apply hinted_not_ok. intros x' q' H'.
  assert (Hb' : is_bytes (firstn n data)).
  { rewrite <- (firstn_skipn n data) in Hb. apply is_bytes_app in Hb. apply Hb. }
  apply hinted_sound in H'; [|exact Hb'].
  destruct H' as (v & bs & He & Hv & Hc & Hh & ->).
  assert (H2 : decode_hinted HNone types data id pos = (Ok x', (pos + List.length bs)%nat)).
  { apply hinted_complete; [exact Hb|]. exists v, bs. repeat split; auto. eapply has_firstn; eauto. }
  rewrite H in H2. injection H2 as _ ->. destruct (has_len _ _ _ Hh) as [->|Hl]; [cbn in Hp; lia|].
  rewrite firstn_length in Hl. lia.
Qed.

(** *** C08 *)

Theorem unique_reading id v1 v2 b1 b2 rest : well_formed types ->
  enc types false id v1 = Some b1 -> enc types false id v2 = Some b2 -> b2 = b1 ++ rest ->
  rest = [] /\ view types false HNone id v1 = view types false HNone id v2.
Proof.
  intros Hw H1 H2 ->.
  assert (Hr : is_bytes ([] ++ rest)).
  { apply enc_bytes in H2. apply is_bytes_app in H2. apply H2. }
  destruct (round_trip id v1 b1 [] rest Hw H1 Hr) as (d1 & l1 & Hv1 & Hd1).
  destruct (round_trip id v2 (b1 ++ rest) [] [] Hw H2 ltac:(constructor)) as (d2 & l2 & Hv2 & Hd2).
  rewrite app_nil_r in Hd2. cbn [app List.length Nat.add] in *. rewrite Hd1 in Hd2.
  injection Hd2 as -> -> Hl. rewrite app_length in Hl. split; [|congruence].
  destruct rest; [reflexivity|cbn in Hl; lia].
Qed.

(** *** C14 *)

Theorem whole_blob data id :
  match decode_at types data id 0 with
  | (Ok x, q) =>
      if Nat.eqb q (List.length data) then decode_all types data id = Ok x
      else decode_all types data id = Err (SomeDataNotUsedBlob q)
  | (Err y, _) => decode_all types data id = Err y
  | _ => False
  end.
Proof.
  pose proof (hinted_returns HNone data id 0) as Hr. rewrite <- decode_at_hinted in Hr. revert Hr.
  unfold decode_all, decode_all_as_type, decode_all_body, decode_at, bind, set_pos, get_pos.
  destruct (decode_as_type_at_position _ _ _ _ _) as [[[x|y| |] q] e]; cbn [fst];
    try (intros [(a & Ha)|(a & Ha)]; discriminate); intros _; [|reflexivity].
  cbn [total_len slice_buffer]. destruct (Nat.eqb q (List.length data)); reflexivity.
Qed.

Theorem whole_blob_value data id x : is_bytes data -> decode_all types data id = Ok x ->
  exists v, enc types false id v = Some data /\ view types false HNone id v = Some (x_data x, x_info x).
Proof.
  intros Hb H. pose proof (whole_blob data id) as Hw.
  destruct (decode_at types data id 0) as [[x'|y| |] q] eqn:Hd; try contradiction; [|congruence].
  destruct (Nat.eqb q (List.length data)) eqn:Hq; [|congruence]. apply Nat.eqb_eq in Hq.
  rewrite H in Hw. injection Hw as <-. apply only_what_is_there in Hd; [|exact Hb].
  destruct Hd as (v & He & Hv & _). exists v. split; [|exact Hv]. rewrite He. f_equal.
  subst q. unfold slice. rewrite skipn_O, Nat.sub_0_r. apply firstn_all.
Qed.

End Cor.

(** *** C05, C09, C10 for arbitrary sources *)

Section Any.
Context {E : Type}.
Variable b : buffer E.
Variable r : registry E.
Hypothesis Hb : good_buffer b.
Hypothesis Hr : good_registry r.

Lemma position_bounds id pos e o q e' :
  decode_as_type_at_position b r id pos e = (o, q, e') -> (pos <= total_len b)%nat ->
  (pos <= q <= total_len b)%nat.
Proof.
  intros H Hp. pose proof (decode_with_type_post b r Hb Hr (Symbol id) propagated_new pos e I eq_refl) as Hq.
  unfold decode_as_type_at_position in H. rewrite H in Hq. cbn in Hq. lia.
Qed.

Lemma depth_bound id pos e fuel : (S (S (total_len b) * (reg_bound r + 3)) <= fuel)%nat ->
  returns (fst (fst (decode b r fuel (Symbol id) propagated_new pos e))) /\
  decode b r fuel (Symbol id) propagated_new pos e = decode_as_type_at_position b r id pos e.
Proof.
  intros Hf. pose proof (decode_at_runs b r Hb Hr id pos e) as Hrun.
  assert (He : decode b r fuel (Symbol id) propagated_new pos e = decode_as_type_at_position b r id pos e).
  { symmetry. unfold decode_as_type_at_position, decode_with_type in *.
    destruct (decode_lem b r (decode_fuel b r) fuel (Symbol id) propagated_new Hf pos e) as [H|H]; [|exact H].
    exfalso. destruct (decode b r (decode_fuel b r) (Symbol id) propagated_new pos e) as [[o q] e1].
    cbn [fst] in H. subst o. exact Hrun. }
  split; [|exact He]. rewrite He. exact (runs_returns _ _ Hrun).
Qed.

Lemma cyclic_true id pos e i q e' :
  decode_as_type_at_position b r id pos e = (Err (PRegistry (RInternal (CyclicMetadata i))), q, e') ->
  clos_trans N (holds r) i i \/ exists j e1 e2, resolve r j e1 = (inr (RInternal (CyclicMetadata i)), e2).
Proof.
  intros H. pose proof (decode_with_type_post b r Hb Hr (Symbol id) propagated_new pos e I eq_refl) as Hq.
  unfold decode_as_type_at_position in H. rewrite H in Hq. cbn in Hq. destruct Hq as [_ Hq].
  apply Hq. reflexivity.
Qed.
End Any.

Lemma trans_mono (R1 R2 : N -> N -> Prop) : (forall a b, R1 a b -> R2 a b) ->
  forall a b, clos_trans N R1 a b -> clos_trans N R2 a b.
Proof. intros H a b Hc. induction Hc; [apply t_step; auto|eapply t_trans; eauto]. Qed.

Lemma cyclic_true_mem types data id pos i q :
  decode_at types data id pos = (Err (PRegistry (RInternal (CyclicMetadata i))), q) ->
  clos_trans N (contains types) i i.
Proof.
  unfold decode_at. destruct (decode_as_type_at_position _ _ _ _ _) as [[o q'] e'] eqn:Hd.
  intros H; injection H as -> _. apply cyclic_true in Hd; [|apply good_slice|apply good_portable].
  destruct Hd as [Hc|(j & e1 & e2 & H)].
  - assert (Hi : forall a b0, holds (@portable unit types) a b0 -> contains types a b0).
    { intros a b0 (t & (e1 & e2 & Hk) & Hch). unfold contains. exists t. split; [|exact Hch].
      cbn [resolve portable] in Hk. unfold portable_resolve in Hk.
      destruct (lookup types a); [injection Hk as -> _; reflexivity|discriminate]. }
    exact (trans_mono _ _ Hi _ _ Hc).
  - cbn [resolve portable] in H. unfold portable_resolve in H. destruct (lookup types j); discriminate.
Qed.
