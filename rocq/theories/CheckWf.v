(** Decidable sufficient conditions, strong enough for real metadata, for the hypotheses
    [well_formed] and [no_empty_elements]. *)
From Coq Require Import Lia Relations.
From Verif Require Import Base Compact Types Spec SpecWf SpecSize Sample ProofSpec ProofRel ProofWf.
From Verif Require ProofCompact.
Local Open Scope list_scope.

Section Check.
Variable types : list ty.

(** ** Well-formedness: a rank that decreases along containment *)

Definition rank_of (ranks : list N) (j : N) : N := nth (N.to_nat j) ranks 0%N.

Definition next_ranks (ranks : list N) : list N :=
  map (fun t => fold_left N.max (map (fun j => N.succ (rank_of ranks j)) (inside t)) 0%N) types.

(** Longest containment chains of up to [k] steps. *)
Definition ranks (k : nat) : list N := Nat.iter k next_ranks (map (fun _ => 0%N) types).

(** No compact is met when looking through [id]. *)
Fixpoint no_compact (fuel : nat) (id : N) : bool :=
  match fuel with
  | O => false
  | S fuel' =>
      match lookup types id with
      | None => true
      | Some t =>
          match transparent t with
          | None => true
          | Some (_, true) => false
          | Some (j, false) => no_compact fuel' j
          end
      end
  end.

Definition wf_ranked (r : list N) : bool :=
  forallb (fun x => forallb (fun j => (rank_of r j <? rank_of r (fst x))%N) (inside (snd x))
                    && forallb (fun j => (j <? N.of_nat (List.length types))%N) (mentioned (snd x))
                    && match transparent (snd x) with
                       | Some (j, true) => no_compact 20 j
                       | _ => true
                       end) (indexed types).

Lemma no_compact_ok fuel : forall b c d, no_compact fuel b = true ->
  clos_refl_trans_1n N (unwraps types) b c -> ~ compact_around types c d.
Proof.
  induction fuel as [|fuel IH]; intros b c d H Hr; [discriminate|]. cbn [no_compact] in H.
  destruct Hr as [|b' c (t & k & Hl & Ht) Hr].
  - intros (t & Hl & Ht). rewrite Hl, Ht in H. discriminate.
  - rewrite Hl, Ht in H. destruct k; [discriminate|]. eapply IH; eauto.
Qed.

Theorem wf_ranked_ok r : wf_ranked r = true -> well_formed types.
Proof.
  unfold wf_ranked. rewrite forallb_forall. intros H.
  assert (Hx : forall id t, lookup types id = Some t ->
    (forall j, In j (inside t) -> (rank_of r j < rank_of r id)%N) /\
    (forall j, In j (mentioned t) -> (j < N.of_nat (List.length types))%N) /\
    (forall j, transparent t = Some (j, true) -> no_compact 20 j = true)).
  { intros id t Hl. specialize (H _ (lookup_indexed _ _ _ Hl)). cbn [fst snd] in H.
    apply andb_true_iff in H. destruct H as [H H3]. apply andb_true_iff in H. destruct H as [H1 H2].
    rewrite forallb_forall in H1, H2. repeat split.
    - intros j Hj. apply N.ltb_lt, H1, Hj.
    - intros j Hj. apply N.ltb_lt, H2, Hj.
    - intros j Ht. rewrite Ht in H3. exact H3. }
  constructor.
  - assert (Hlt : forall a c, clos_trans N (contains types) a c -> (rank_of r c < rank_of r a)%N).
    { intros a c Hc. induction Hc as [a c Hc|a b c _ IH1 _ IH2]; [|lia].
      destruct (inside_contains _ _ _ Hc) as (t & Hl & Hin). destruct (Hx _ _ Hl) as [Hi _]. apply Hi, Hin. }
    intros id Hc. apply Hlt in Hc. lia.
  - intros id t j Hl Hm. destruct (Hx _ _ Hl) as (_ & Hi & _).
    specialize (Hi j (mentions_mentioned _ _ Hm)). unfold lookup.
    destruct (N.ltb_spec j (N.of_nat (List.length types))) as [Hj|Hj]; [|lia].
    destruct (nth_error types (N.to_nat j)) eqn:Hn; [eauto|]. apply nth_error_None in Hn. lia.
  - intros a b c d (t & Hl & Ht) Hr. destruct (Hx _ _ Hl) as (_ & _ & Hi).
    apply (no_compact_ok 20 b); [exact (Hi _ Ht)|]. apply clos_rt_rt1n. exact Hr.
Qed.

(** ** Types whose values take at least one byte *)

Fixpoint takes_bytes (fuel : nat) (id : N) : bool :=
  match fuel with
  | O => false
  | S fuel' =>
      match lookup types id with
      | None => true
      | Some t =>
          match def_of t with
          | None => true
          | Some (TComposite fs) => existsb (fun f => takes_bytes fuel' (f_ty f)) fs
          | Some (TVariant []) => false
          | Some (TArray len el) => (0 <? len)%N && takes_bytes fuel' el
          | Some (TTuple ids) => existsb (takes_bytes fuel') ids
          | Some (TCompact inner) => takes_bytes fuel' inner
          | _ => true
          end
      end
  end.

Definition elements_take_bytes : bool :=
  forallb (fun t => match def_of t with Some (TSequence el) => takes_bytes 20 el | _ => true end) types.

Lemma enc_list_nonempty {A} (f : A -> value -> option bytes) ids vs :
  (exists i, In i ids /\ forall v, f i v <> Some []) -> enc_list f ids vs <> Some [].
Proof.
  revert ids; induction vs as [|v vs IH]; intros [|i ids] (j & Hj & Hne); cbn [enc_list]; try discriminate.
  - destruct Hj.
  - destruct (f i v) as [a|] eqn:Ha; [|discriminate]. fold (enc_list f).
    destruct (enc_list f ids vs) as [b|] eqn:Hb; [|discriminate]. intros H. injection H as H.
    apply app_eq_nil in H. destruct H as [-> ->]. destruct Hj as [->|Hj].
    + exact (Hne _ Ha).
    + apply (IH ids); eauto.
Qed.

Lemma app_ne {A} (a b : list A) : a <> [] -> Some (a ++ b) <> Some [].
Proof. intros H Heq. injection Heq as Heq. apply app_eq_nil in Heq. tauto. Qed.

Lemma enc_all_nonempty (f : value -> option bytes) vs :
  vs <> [] -> (forall v, f v <> Some []) -> enc_all f vs <> Some [].
Proof.
  destruct vs as [|v vs]; [congruence|]. intros _ Hf. cbn [enc_all].
  destruct (f v) as [a|] eqn:Ha; [|discriminate]. fold (enc_all f). destruct (enc_all f vs); [|discriminate].
  intros H. injection H as H. apply app_eq_nil in H. destruct H as [-> _]. exact (Hf _ Ha).
Qed.

Ltac unguard H := repeat match type of H with guard _ _ = Some _ => apply guard_ok in H; destruct H as [? H] end.

Lemma takes_bytes_ok fuel : forall id cpt v, takes_bytes fuel id = true -> enc types cpt id v <> Some [].
Proof.
  induction fuel as [|fuel IH]; intros id cpt v H He; [discriminate|]. cbn [takes_bytes] in H.
  assert (Hle : forall k x, (0 < k)%nat -> [] <> le_bytes k x) by (intros [|k] x Hk; [lia|discriminate]).
  assert (Hu : forall x, (0 < usize x)%nat) by (intros []; cbn; lia).
  assert (Hc : forall x, [] <> compact_enc x) by (intros x Hx; exact (ProofCompact.compact_enc_nonempty x (eq_sym Hx))).
  destruct (enc_lookup _ _ _ _ _ He) as (t & Hl). rewrite Hl in H.
  destruct v as [x|z|b|s|vs|vs|i vs| |vs|vs|v|x s|s|e|i s|i j vs]; cbn [enc] in He; rewrite Hl in He; cbv zeta in He.
  - assert (Hd : match def_of t with
          | Some (TPrimitive (PrU w)) => guard (fits w x) (if cpt then compact_enc x else le_bytes (usize w) x)
          | Some (TPrimitive PrU256) => guard (negb cpt && (x <? 2 ^ 256)%N) (le_bytes 32 x)
          | Some (TPrimitive PrChar) => guard (negb cpt && scalar x) (le_bytes 4 x)
          | _ => None end = Some [] -> False).
    { destruct (def_of t) as [[| | | | |[]| |]|]; try discriminate; intros H1; unguard H1;
        try (revert H1; apply Hle; lia).
      destruct cpt; [exact (Hc _ H1)|revert H1; apply Hle, Hu]. }
    destruct (classify t); try exact (Hd He).
    destruct cpt; unguard He; [exact (Hc _ He)|revert He; apply Hle, Hu].
  - destruct (def_of t) as [[| | | | |[]| |]|]; try discriminate; unguard He; revert He; apply Hle; [apply Hu|lia].
  - destruct (def_of t) as [[| | | | |[]| |]|]; try discriminate; unguard He; discriminate.
  - destruct (def_of t) as [[| | | | |[]| |]|]; try discriminate; unguard He. symmetry in He.
    apply app_eq_nil in He. destruct He as [He _]. exact (Hc _ (eq_sym He)).
  - destruct (def_of t) as [[fs| | | | | | |]|]; try discriminate. destruct (cpt && _); [discriminate|].
    apply existsb_exists in H. destruct H as (f & Hf & Hb). revert He. apply enc_list_nonempty.
    exists f. split; [exact Hf|]. intros v. apply IH. exact Hb.
  - destruct (def_of t) as [[| | | |ids| | |]|]; try discriminate. destruct (cpt && _); [discriminate|].
    apply existsb_exists in H. destruct H as (f & Hf & Hb). revert He. apply enc_list_nonempty.
    exists f. split; [exact Hf|]. intros v. apply IH. exact Hb.
  - destruct (def_of t) as [[|variants| | | | | |]|]; try discriminate.
    destruct (by_index variants i) as [var|]; [|discriminate].
    destruct (variant_sig types t var); [discriminate|]. destruct (pallet_items types t var); [discriminate|].
    destruct (_ && _); [|discriminate]. destruct (enc_list _ _ _); discriminate.
  - destruct (def_of t) as [[|[]| | | | | |]|]; try discriminate.
  - destruct (def_of t) as [[| |el| | | | |]|]; try discriminate.
    destruct (_ && _); [|discriminate]. destruct (enc_all _ _); [|discriminate]. cbn [option_map] in He.
    injection He as He. apply app_eq_nil in He. destruct He as [He _]. exact (Hc _ (eq_sym He)).
  - destruct (def_of t) as [[| | |len el| | | |]|]; try discriminate.
    destruct (negb cpt && (len =? N.of_nat (List.length vs))%N) eqn:Hg; [|discriminate].
    apply andb_true_iff in Hg. destruct Hg as [_ Hlen]. apply N.eqb_eq in Hlen.
    apply andb_true_iff in H. destruct H as [H0 Hb]. apply N.ltb_lt in H0.
    revert He. apply enc_all_nonempty; [|intros v; apply IH; exact Hb].
    intros ->. cbn in Hlen. lia.
  - destruct (def_of t) as [[| | | | | |inner|]|]; try discriminate. destruct cpt; [discriminate|].
    revert He. apply IH. exact H.
  - destruct (def_of t) as [[| | | | | | |st o]|]; try discriminate.
    destruct (bit_order_of types o); [|discriminate]. destruct (bit_store types st) as [uw|]; [|discriminate].
    unguard He. symmetry in He. apply app_eq_nil in He. destruct He as [He _]. exact (Hc _ (eq_sym He)).
  - destruct (classify t) as [|k| | | | |]; try discriminate; unguard He; subst s;
      match goal with H : (_ && _)%bool = true |- _ => apply andb_true_iff in H; destruct H as [_ H] end;
      [destruct k; discriminate|discriminate].
  - destruct (classify t); try discriminate; unguard He. destruct e; unfold era_enc in He; [discriminate|].
    revert He. apply Hle. lia.
  - destruct (def_of t) as [[|variants| | | | | |]|]; try discriminate.
    destruct (by_index variants i) as [var|]; [|discriminate].
    destruct (variant_sig types t var) as [k|]; [|discriminate]. unguard He. discriminate.
  - destruct (def_of t) as [[|variants| | | | | |]|]; try discriminate.
    destruct (by_index variants i) as [var|]; [|discriminate].
    destruct (pallet_items types t var) as [[inner items]|]; [|discriminate].
    destruct (by_index items j) as [item|]; [|discriminate].
    destruct (_ && _); [|discriminate]. destruct (enc_list _ _ _); discriminate.
Qed.

Theorem elements_take_bytes_ok : elements_take_bytes = true -> no_empty_elements types.
Proof.
  unfold elements_take_bytes. rewrite forallb_forall. intros H id t el v Hl Hd.
  specialize (H t). rewrite Hd in H. apply (takes_bytes_ok 20). apply H.
  unfold lookup in Hl. destruct (N.ltb _ _); [|discriminate]. eapply nth_error_In; eauto.
Qed.

End Check.
