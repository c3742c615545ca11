(** C70: type ids are only names.  Renumbering the types of a registry changes nothing but the
    numbers: the same data gives the same parsed data at the same positions, and errors that
    name a type name it by its new number.  Types may also be merged under one number (say, when
    duplicates are removed), as long as no cycle is made by that.  Specification in SpecRenumber.v. *)
From Coq Require Import Lia Relations.
From Verif Require Import Base Compact Types Indicators Decode Sign Storage Unchecked Spec SpecSource SpecReach SpecRenumber SpecUnchecked
  Api ApiSign ApiStorage ProofBase ProofSafe ProofSafe2 ProofRenumber2 SampleChain PropUnchecked.
Local Open Scope string_scope.
Local Open Scope list_scope.

(** ** Any memory, any set of types containing what is needed *)
Theorem c70_value : forall E (b : buffer E) (r1 r2 : registry E) f S id pos e,
  good_buffer b -> good_registry r1 -> good_registry r2 ->
  closed r1 S -> kept_apart f S r1 -> renumbers f S r1 r2 -> S id ->
  decode_as_type_at_position b r2 (f id) pos e =
    renumber_result (renumber_err f) SpecRenumber.same (decode_as_type_at_position b r1 id pos e).
Proof.
  intros E b r1 r2 f S id pos e Hb H1 H2 Hc Hd Hr Hi. apply remr_equation_same.
  exact (at_renumbered f S r1 r2 Hd Hc Hr H1 H2 b id Hb Hi).
Qed.
Print Assumptions c70_value.

Theorem c70_all : forall E (b : buffer E) (r1 r2 : registry E) f S id e,
  good_buffer b -> good_registry r1 -> good_registry r2 ->
  closed r1 S -> kept_apart f S r1 -> renumbers f S r1 r2 -> S id ->
  decode_all_as_type b r2 (f id) e =
    (renumber_outcome (renumber_err f) SpecRenumber.same (fst (decode_all_as_type b r1 id e)), snd (decode_all_as_type b r1 id e)).
Proof.
  intros E b r1 r2 f S id e Hb H1 H2 Hc Hd Hr Hi. unfold decode_all_as_type.
  rewrite (remr_equation_same _ _ _ 0%nat e (all_renumbered f S r1 r2 Hd Hc Hr H1 H2 b id Hb Hi)).
  destruct (decode_all_body b r1 id 0 e) as [[o q] e']. reflexivity.
Qed.
Print Assumptions c70_all.

Theorem c70_transaction : forall E ME (b : buffer E) (m1 m2 : metadata E ME) f S genesis pos e,
  good_buffer b -> good_registry (m_types m1) -> good_registry (m_types m2) -> renumbered_metadata f S m1 m2 ->
  parse_transaction b m2 genesis pos e =
    renumber_result (renumber_signable f) (renumber_transaction f) (parse_transaction b m1 genesis pos e).
Proof. intros E ME b m1 m2 f S g pos e Hb H1 H2 Hm. apply remr_equation. exact (transaction_renumbered f S m1 m2 Hm H1 H2 b g Hb). Qed.
Print Assumptions c70_transaction.

Theorem c70_unmarked : forall E ME (b : buffer E) (m1 m2 : metadata E ME) f S genesis pos e,
  good_buffer b -> good_registry (m_types m1) -> good_registry (m_types m2) -> renumbered_metadata f S m1 m2 ->
  parse_transaction_unmarked b m2 genesis pos e =
    renumber_result (renumber_signable f) SpecRenumber.same (parse_transaction_unmarked b m1 genesis pos e).
Proof. intros E ME b m1 m2 f S g pos e Hb H1 H2 Hm. apply remr_equation_same. exact (transaction_unmarked_renumbered f S m1 m2 Hm H1 H2 b g Hb). Qed.
Print Assumptions c70_unmarked.

Theorem c70_unchecked : forall E ME (b : buffer E) (m1 m2 : metadata E ME) f S pos e,
  good_buffer b -> good_registry (m_types m1) -> good_registry (m_types m2) -> renumbered_metadata f S m1 m2 ->
  decode_as_unchecked_extrinsic b m2 pos e =
    renumber_result (renumber_unchecked f) SpecRenumber.same (decode_as_unchecked_extrinsic b m1 pos e).
Proof. intros E ME b m1 m2 f S pos e Hb H1 H2 Hm. apply remr_equation_same. exact (unchecked_renumbered f S m1 m2 Hm H1 H2 b Hb). Qed.
Print Assumptions c70_unchecked.

Theorem c70_storage : forall E blake2_128 twox_64 (kb vb : buffer E) (r1 r2 : registry E) f S entry pos e,
  good_buffer kb -> good_buffer vb -> good_registry r1 -> good_registry r2 ->
  closed r1 S -> kept_apart f S r1 -> renumbers f S r1 r2 -> entry_in r1 S (en_ty entry) ->
  decode_as_storage_entry blake2_128 twox_64 kb vb (EntryMeta (renumber_entry f (en_ty entry)) (en_docs entry)) r2 pos e =
    renumber_result (renumber_storage f) (renumber_entry_value f)
      (decode_as_storage_entry blake2_128 twox_64 kb vb entry r1 pos e).
Proof.
  intros E bl tw kb vb r1 r2 f S entry pos e Hk Hv H1 H2 Hc Hd Hr He. apply remr_equation.
  exact (storage_renumbered f S r1 r2 Hd Hc Hr H1 H2 bl tw kb vb entry Hk Hv He).
Qed.
Print Assumptions c70_storage.

(** ** A registry in memory in another order, or without its duplicates *)

Lemma reordered_renumbers {E} f types1 types2 : reordered f types1 types2 ->
  renumbers f (fun _ => True) (@portable E types1) (portable types2).
Proof.
  intros [_ H] id e _. cbn [portable resolve]. unfold portable_resolve. rewrite H.
  destruct (lookup types1 id) as [t|]; cbn [option_map]; [|reflexivity]. exists (renumber_ty f t). repeat split.
Qed.

Lemma all_closed {E} (r : registry E) : closed r (fun _ => True).
Proof. intros id e t e' _ _. apply Forall_forall. trivial. Qed.

(** Numbering different types differently keeps them apart, *)
Lemma distinct_apart {E} f S (r : registry E) : closed r S -> distinct f S -> kept_apart f S r.
Proof.
  intros Hc Hd i j Hi Hij. apply Hd; [exact Hi|]. apply clos_trans_tn1 in Hij.
  assert (K : forall x y, S x -> directly r x y -> S y).
  { intros x y Hx (e & t & e' & Hr & Hy). pose proof (Hc x e t e' Hx Hr) as Hn. rewrite Forall_forall in Hn. apply Hn.
    unfold direct in Hy. unfold needs. destruct (def_of t) as [[]|]; try contradiction; exact Hy. }
  induction Hij as [y Hy|y z Hy _ IH]; eapply K; eassumption.
Qed.

Lemma reordered_apart {E} f types1 types2 : reordered f types1 types2 -> kept_apart f (fun _ => True) (@portable E types1).
Proof. intros [H _]. apply distinct_apart; [apply all_closed|]. intros i j _ _. apply H. Qed.

(** and so does a result without cycles. *)
Lemma merged_renumbers {E} f types1 types2 : merged f types1 types2 ->
  renumbers f (fun _ => True) (@portable E types1) (portable types2).
Proof.
  intros [_ H] id e _. cbn [portable resolve]. unfold portable_resolve. pose proof (H id) as K.
  destruct (lookup types1 id) as [t|]; [|rewrite K; reflexivity]. destruct K as (t' & -> & K). exists t'. split; [reflexivity|exact K].
Qed.

Lemma merged_apart {E} f types1 types2 : merged f types1 types2 -> kept_apart f (fun _ => True) (@portable E types1).
Proof.
  intros [Ha H] i j _ Hij Hf. exfalso. apply (Ha (f i)). rewrite Hf at 2. clear Hf.
  induction Hij as [i j (e & t & e' & Hr & Hj)|i k j _ IH1 _ IH2]; [|exact (t_trans _ _ _ _ _ IH1 IH2)].
  apply t_step. cbn [portable resolve] in Hr. unfold portable_resolve in Hr. pose proof (H i) as K.
  destruct (lookup types1 i) as [t1|]; [|discriminate]. injection Hr as -> _. destruct K as (t' & Hl & Hp & _ & Hd).
  exists t'. split; [exact Hl|]. unfold direct in Hj.
  assert (Ed : def_of t' = option_map (renumber_def f) (def_of t)).
  { assert (Ec : classify t' = classify t) by (unfold classify; rewrite Hp; reflexivity).
    unfold def_of. rewrite Ec, Hd. destruct (classify t); reflexivity. }
  rewrite Ed. destruct (def_of t) as [[fs|vs|el|n el|ids|x|inner|st o]|]; cbn [option_map renumber_def]; try contradiction Hj.
  - apply in_map_iff in Hj. destruct Hj as (g & <- & Hg). exists (renumber_field f g). split; [apply in_map, Hg|reflexivity].
  - destruct Hj as [<-|[]]. reflexivity.
  - apply in_map, Hj.
  - destruct Hj as [<-|[]]. reflexivity.
Qed.

Lemma either_renumbers {E} f types1 types2 : reordered f types1 types2 \/ merged f types1 types2 ->
  renumbers f (fun _ => True) (@portable E types1) (portable types2).
Proof. intros [H|H]; [exact (reordered_renumbers _ _ _ H)|exact (merged_renumbers _ _ _ H)]. Qed.

Lemma either_apart {E} f types1 types2 : reordered f types1 types2 \/ merged f types1 types2 ->
  kept_apart f (fun _ => True) (@portable E types1).
Proof. intros [H|H]; [exact (reordered_apart _ _ _ H)|exact (merged_apart _ _ _ H)]. Qed.

Theorem c70_reordered : forall f types1 types2 data id pos, reordered f types1 types2 \/ merged f types1 types2 ->
  decode_at types2 data (f id) pos =
    (renumber_outcome (renumber_err f) SpecRenumber.same (fst (decode_at types1 data id pos)), snd (decode_at types1 data id pos)) /\
  decode_all types2 data (f id) = renumber_outcome (renumber_err f) SpecRenumber.same (decode_all types1 data id).
Proof.
  intros f types1 types2 data id pos H.
  pose proof (either_renumbers (E := unit) f types1 types2 H) as Hr. pose proof (either_apart (E := unit) _ _ _ H) as Hd.
  split.
  - unfold decode_at. rewrite (c70_value unit (slice_buffer data) (portable types1) (portable types2) f (fun _ => True) id pos tt
      (good_slice data) (good_portable types1) (good_portable types2) (all_closed _) Hd Hr I).
    destruct (decode_as_type_at_position (slice_buffer data) (portable types1) id pos tt) as [[o q] e']. reflexivity.
  - unfold decode_all. rewrite (c70_all unit (slice_buffer data) (portable types1) (portable types2) f (fun _ => True) id tt
      (good_slice data) (good_portable types1) (good_portable types2) (all_closed _) Hd Hr I). reflexivity.
Qed.
Print Assumptions c70_reordered.

Lemma reordered_chain {ME} f types2 (c : ApiSign.chain ME) : reordered f (ch_types c) types2 \/ merged f (ch_types c) types2 ->
  renumbered_metadata f (fun _ => True) (chain_metadata c) (chain_metadata (renumber_chain f types2 c)).
Proof.
  intros H. constructor; cbn; try reflexivity; auto.
  - exact (either_renumbers f _ _ H).
  - apply all_closed.
  - exact (either_apart _ _ _ H).
Qed.

Theorem c70_chain : forall ME (c : ApiSign.chain ME) f types2 genesis data, reordered f (ch_types c) types2 \/ merged f (ch_types c) types2 ->
  transaction (renumber_chain f types2 c) genesis data =
    renumber_outcome (renumber_signable f) (renumber_transaction f) (transaction c genesis data) /\
  transaction_unmarked (renumber_chain f types2 c) genesis data =
    renumber_outcome (renumber_signable f) SpecRenumber.same (transaction_unmarked c genesis data) /\
  unchecked_extrinsic (renumber_chain f types2 c) data =
    renumber_outcome (renumber_unchecked f) SpecRenumber.same (unchecked_extrinsic c data).
Proof.
  intros ME c f types2 g data H. pose proof (reordered_chain f types2 c H) as Hm.
  assert (G1 : good_registry (m_types (chain_metadata c))) by apply good_portable.
  assert (G2 : good_registry (m_types (chain_metadata (renumber_chain f types2 c)))) by apply good_portable.
  split; [|split].
  - unfold transaction, result. rewrite (c70_transaction _ _ _ _ _ f _ g 0%nat tt (good_slice data) G1 G2 Hm).
    destruct (parse_transaction _ _ _ _ _) as [[o q] e']. reflexivity.
  - unfold transaction_unmarked, result. rewrite (c70_unmarked _ _ _ _ _ f _ g 0%nat tt (good_slice data) G1 G2 Hm).
    destruct (parse_transaction_unmarked _ _ _ _ _) as [[o q] e']. reflexivity.
  - unfold unchecked_extrinsic, result. rewrite (c70_unchecked _ _ _ _ _ f _ 0%nat tt (good_slice data) G1 G2 Hm).
    destruct (decode_as_unchecked_extrinsic _ _ _ _) as [[o q] e']. reflexivity.
Qed.
Print Assumptions c70_chain.

Theorem c70_entry : forall blake2_128 twox_64 f types1 types2 key value entry, reordered f types1 types2 \/ merged f types1 types2 ->
  storage_entry blake2_128 twox_64 types2 key value (EntryMeta (renumber_entry f (en_ty entry)) (en_docs entry)) =
    renumber_outcome (renumber_storage f) (renumber_entry_value f) (storage_entry blake2_128 twox_64 types1 key value entry).
Proof.
  intros bl tw f types1 types2 key value entry H. unfold storage_entry.
  rewrite (c70_storage unit bl tw (slice_buffer key) (slice_buffer value) (portable types1) (portable types2) f (fun _ => True) entry 0%nat tt
    (good_slice key) (good_slice value) (good_portable types1) (good_portable types2) (all_closed _)
    (either_apart _ _ _ H) (either_renumbers f types1 types2 H)).
  - destruct (decode_as_storage_entry _ _ _ _ _ _ _ _) as [[o q] e']. reflexivity.
  - destruct (en_ty entry); cbn; [exact I|]. repeat split. intros. apply Forall_forall. trivial.
Qed.
Print Assumptions c70_entry.

(** ** Every registry can be reordered: backwards, for example. *)
Definition backwards (n : nat) (id : N) : N := if (id <? N.of_nat n)%N then (N.of_nat n - 1 - id)%N else id.
Definition turned (types : list ty) : list ty := rev (map (renumber_ty (backwards (List.length types))) types).

Lemma backwards_inj n i j : backwards n i = backwards n j -> i = j.
Proof.
  unfold backwards. destruct (N.ltb_spec i (N.of_nat n)), (N.ltb_spec j (N.of_nat n)); lia.
Qed.

Theorem c70_turned : forall types, reordered (backwards (List.length types)) types (turned types).
Proof.
  intros types. split; [apply backwards_inj|]. intros id. remember (List.length types) as n eqn:Hn.
  unfold lookup, turned. rewrite rev_length, map_length, <- Hn.
  destruct (N.ltb_spec id (N.of_nat n)) as [H|H].
  - assert (Eb : backwards n id = (N.of_nat n - 1 - id)%N).
    { unfold backwards. destruct (N.ltb_spec id (N.of_nat n)); [reflexivity|lia]. }
    rewrite Eb. destruct (N.ltb_spec (N.of_nat n - 1 - id) (N.of_nat n)) as [_|H2]; [|lia].
    destruct (nth_error types (N.to_nat id)) as [t|] eqn:En; [|apply nth_error_None in En; lia].
    cbn [option_map]. remember (map (renumber_ty (backwards n)) types) as l eqn:Hl.
    assert (Hll : List.length l = n) by (rewrite Hl, map_length; congruence).
    rewrite (nth_error_nth' _ (renumber_ty (backwards n) t)) by (rewrite rev_length, Hll; lia).
    rewrite rev_nth by (rewrite Hll; lia). f_equal. rewrite Hll.
    replace (n - S (N.to_nat (N.of_nat n - 1 - id)))%nat with (N.to_nat id) by lia.
    rewrite Hl, (map_nth (renumber_ty (backwards n)) types t). f_equal. apply nth_error_nth with (d := t) in En. exact En.
  - assert (Eb : backwards n id = id).
    { unfold backwards. destruct (N.ltb_spec id (N.of_nat n)); [lia|reflexivity]. }
    rewrite Eb. destruct (N.ltb_spec id (N.of_nat n)) as [H2|_]; [lia|reflexivity].
Qed.
Print Assumptions c70_turned.

(** ** Of two equal types one can be dropped: everybody who names [j] can name [i] instead. *)
Definition instead (i j : N) (id : N) : N := if (id =? j)%N then i else id.

Lemma lookup_map (g : ty -> ty) types id : lookup (map g types) id = option_map g (lookup types id).
Proof.
  unfold lookup. rewrite map_length. destruct (_ <? _)%N; [|reflexivity]. apply nth_error_map.
Qed.

Section Duplicate.
Variable types : list ty.
Variables i j : N.
Variables ti tj : ty.
Hypothesis Hij : i <> j.
Hypothesis Hi : lookup types i = Some ti.
Hypothesis Hj : lookup types j = Some tj.
Hypothesis Hpath : t_path ti = t_path tj.
Hypothesis Hdocs : t_docs ti = t_docs tj.
Hypothesis Hdef : renumber_def (instead i j) (t_def ti) = renumber_def (instead i j) (t_def tj).
Hypothesis Hac : acyclic types.
Notation f := (instead i j).
Notation c1 := (contains types).
Notation c2 := (contains (map (renumber_ty f) types)).

Lemma same_or x y : f x = f y -> x = y \/ (x = i /\ y = j) \/ (x = j /\ y = i).
Proof. unfold instead. destruct (N.eqb_spec x j), (N.eqb_spec y j); intuition congruence. Qed.

Lemma def_of_renumber t : def_of (renumber_ty f t) = option_map (renumber_def f) (def_of t).
Proof. unfold def_of. change (classify (renumber_ty f t)) with (classify t). destruct (classify t); reflexivity. Qed.

(** What is contained, read off a definition. *)
Lemma contains_direct tys a b : contains tys a b <-> exists t, lookup tys a = Some t /\ In b (direct t).
Proof.
  unfold contains, direct. split; intros (t & Ht & H); exists t; (split; [exact Ht|]); destruct (def_of t) as [[]|]; try contradiction; auto.
  - destruct H as (g & Hg & <-). apply in_map, Hg.
  - left. exact H.
  - left. exact H.
  - apply in_map_iff in H. destruct H as (g & Hg & Hin). exists g. auto.
  - destruct H as [H|[]]. exact H.
  - destruct H as [H|[]]. exact H.
Qed.

Lemma direct_renumber t : direct (renumber_ty f t) = map f (direct t).
Proof.
  unfold direct. rewrite def_of_renumber. destruct (def_of t) as [[fs|vs|el|n el|ids|x|inner|st o]|]; try reflexivity.
  cbn [option_map renumber_def]. rewrite !map_map. reflexivity.
Qed.

Lemma back x y : c2 x y -> exists b, c1 x b /\ f b = y.
Proof.
  rewrite contains_direct. intros (t2 & Ht & Hy). rewrite lookup_map in Ht. destruct (lookup types x) as [t|] eqn:Et; [|discriminate].
  injection Ht as <-. rewrite direct_renumber in Hy. apply in_map_iff in Hy. destruct Hy as (b & Hb & Hin).
  exists b. split; [|exact Hb]. apply contains_direct. exists t. split; assumption.
Qed.

Lemma twins b : c1 i b -> exists b', c1 j b' /\ f b' = f b.
Proof.
  rewrite contains_direct. intros (t & Ht & Hb). rewrite Hi in Ht. injection Ht as <-.
  assert (Ed : map f (direct ti) = map f (direct tj)).
  { rewrite <- !direct_renumber. unfold direct. rewrite !def_of_renumber. unfold def_of, classify. rewrite Hpath.
    destruct (match find _ special_paths with Some _ => _ | None => _ end); cbn [option_map]; rewrite ?Hdef; reflexivity. }
  apply (in_map f) in Hb. rewrite Ed in Hb. apply in_map_iff in Hb. destruct Hb as (b' & Hb' & Hin). exists b'. split; [|exact Hb'].
  apply contains_direct. exists tj. split; assumption.
Qed.

Lemma twins_path b : clos_trans N c1 i b -> exists b', clos_trans N c1 j b' /\ f b' = f b.
Proof.
  intros H. apply clos_trans_t1n in H. inversion H as [y Hy|y z Hy Hz]; subst.
  - destruct (twins b Hy) as (b' & Hb & Ef). exists b'. split; [apply t_step, Hb|exact Ef].
  - apply clos_t1n_trans in Hz. destruct (twins y Hy) as (y' & Hy' & Ef). apply same_or in Ef.
    destruct Ef as [-> |[[-> ->]|[-> ->]]].
    + exists b. split; [|reflexivity]. eapply t_trans; [apply t_step, Hy'|exact Hz].
    + exfalso. apply (Hac i). eapply t_trans; [apply t_step, Hy|apply t_step, Hy'].
    + exfalso. apply (Hac i). apply t_step, Hy.
Qed.

Lemma back_path x y : clos_trans N c2 x y -> exists b, clos_trans N c1 x b /\ f b = y.
Proof.
  intros H. apply clos_trans_t1n in H. induction H as [x y H|x z y H _ (b & Hb & Ef)].
  - destruct (back x y H) as (b & Hb & Ef). exists b. split; [apply t_step, Hb|exact Ef].
  - destruct (back x z H) as (a & Ha & Ea). destruct (N.eqb_spec a z) as [-> |Hn].
    + exists b. split; [|exact Ef]. eapply t_trans; [apply t_step, Ha|exact Hb].
    + assert (Hz : a = j /\ z = i).
      { unfold instead in Ea. destruct (N.eqb_spec a j) as [-> |]; [split; congruence|congruence]. }
      destruct Hz as [-> ->]. destruct (twins_path b Hb) as (b' & Hb' & Ef'). exists b'. split; [|congruence].
      eapply t_trans; [apply t_step, Ha|exact Hb'].
Qed.

Lemma without_acyclic : acyclic (map (renumber_ty f) types).
Proof.
  intros x H. destruct (back_path x x H) as (b & Hb & Ef). destruct (N.eqb_spec b x) as [-> |Hn]; [exact (Hac x Hb)|].
  assert (Hz : b = j /\ x = i).
  { unfold instead in Ef. destruct (N.eqb_spec b j) as [-> |]; [split; congruence|congruence]. }
  destruct Hz as [-> ->]. destruct (twins_path j Hb) as (b' & Hb' & Ef'). apply same_or in Ef'.
  destruct Ef' as [-> |[[-> _]|[-> Hji]]].
  - exact (Hac j Hb').
  - apply (Hac i). exact (t_trans _ _ _ _ _ Hb Hb').
  - apply Hij. symmetry. exact Hji.
Qed.

Lemma duplicate_merged : merged f types (map (renumber_ty f) types).
Proof.
  split; [exact without_acyclic|]. intros id. rewrite lookup_map. destruct (N.eqb_spec id j) as [-> |Hn].
  - replace (f j) with i by (unfold instead; rewrite N.eqb_refl; reflexivity). rewrite Hj, Hi. cbn [option_map]. eexists. split; [reflexivity|]. repeat split; cbn; assumption.
  - replace (f id) with id by (unfold instead; destruct (N.eqb_spec id j); congruence).
    destruct (lookup types id) as [t|]; [|reflexivity]. cbn [option_map]. eexists. split; [reflexivity|]. repeat split.
Qed.
End Duplicate.

Theorem c70_duplicate : forall types i j ti tj, i <> j ->
  lookup types i = Some ti -> lookup types j = Some tj ->
  t_path ti = t_path tj -> t_docs ti = t_docs tj ->
  renumber_def (instead i j) (t_def ti) = renumber_def (instead i j) (t_def tj) ->
  acyclic types ->
  merged (instead i j) types (map (renumber_ty (instead i j)) types).
Proof. intros. eapply duplicate_merged; eassumption. Qed.
Print Assumptions c70_duplicate.

(** ** That different types keep different numbers matters: where two types are merged, a cycle
    is noticed earlier. *)
Definition merge (id : N) : N := if (id =? 1)%N then 0%N else id.
Definition loop_types : list ty :=
  [Ty [] [] (TTuple [2; 1]%N) []; Ty [] [] (TTuple [2; 0]%N) []; Ty [] [] (TPrimitive (PrU U8)) []].
Theorem c70_distinct_needed :
  renumbers merge (fun id => (id < 3)%N) (@portable unit loop_types) (portable (map (renumber_ty merge) loop_types)) /\
  closed (@portable unit loop_types) (fun id => (id < 3)%N) /\
  decode_all loop_types [7; 8]%N 0 = Err (PBuffer (DataTooShort 2 1)) /\
  decode_all (map (renumber_ty merge) loop_types) [7; 8]%N 0 = Err (PRegistry (RInternal (CyclicMetadata 0))).
Proof.
  assert (K : forall id, (id < 3)%N -> id = 0%N \/ id = 1%N \/ id = 2%N) by (intros; lia).
  split; [|split; [|split; vm_compute; reflexivity]].
  - intros id e Hid. apply K in Hid. destruct Hid as [-> |[-> | ->]]; vm_compute; eexists; repeat split.
  - intros id e t e' Hid H. apply K in Hid. cbn [portable resolve] in H. unfold portable_resolve in H.
    destruct Hid as [-> |[-> | ->]]; vm_compute in H; injection H as <- _; unfold needs; vm_compute; repeat constructor.
Qed.
Print Assumptions c70_distinct_needed.

(** Concrete: the sample chain turned around, a transaction and an extrinsic. *)
Example c70_case :
  renumber_chain (backwards 13) (turned chain_types) sample_chain <> sample_chain /\
  ch_call (renumber_chain (backwards 13) (turned chain_types) sample_chain) = inl 3%N /\
  (exists xs, transaction sample_chain (Some genesis) (frame the_call ++ mortal_extensions) = Ok (TransactionParsed (inl call_data) xs) /\
    transaction (renumber_chain (backwards 13) (turned chain_types) sample_chain) (Some genesis) (frame the_call ++ mortal_extensions)
      = Ok (TransactionParsed (inl call_data) xs)) /\
  decode_all chain_types [] 77 = Err (PRegistry (RInternal (TypeNotResolved 77))) /\
  unchecked_extrinsic (renumber_chain (backwards 13) (turned chain_types) sample_chain) (frame signed_content) = Ok signed_shown.
Proof.
  split; [intros H; apply (f_equal (@ch_call string)) in H; vm_compute in H; discriminate|].
  split; [vm_compute; reflexivity|]. split; [eexists; split; vm_compute; reflexivity|]. split; vm_compute; reflexivity.
Qed.

(** Concrete: a struct of two bytes and its duplicate; without the
    duplicate the same values and the same error result. *)
Definition twin_types : list ty :=
  [Ty [] [] (TPrimitive (PrU U8)) [];
   Ty ["Pair"] [] (TComposite [Field (Some "a") 0 None []; Field (Some "b") 0 None []]) ["twin"];
   Ty ["Pair"] [] (TComposite [Field (Some "a") 0 None []; Field (Some "b") 0 None []]) ["twin"];
   Ty [] [] (TTuple [1; 2; 4]%N) []; Ty [] [] (TCompact 2) []].
Definition rank (id : N) : option nat := nth_error [0; 1; 1; 3; 2]%nat (N.to_nat id).
Example c70_twins :
  merged (instead 1 2) twin_types (map (renumber_ty (instead 1 2)) twin_types) /\
  (exists d, decode_all twin_types [7; 8] 2 = Ok d /\ decode_all (map (renumber_ty (instead 1 2)) twin_types) [7; 8] 1 = Ok d)%N /\
  decode_all twin_types [7; 8; 9; 10; 4]%N 3 = Err (PRegistry (RInternal (UnexpectedCompactInsides 4))) /\
  decode_all (map (renumber_ty (instead 1 2)) twin_types) [7; 8; 9; 10; 4]%N 3 = Err (PRegistry (RInternal (UnexpectedCompactInsides 4))).
Proof.
  split; [|split; [eexists; split; vm_compute; reflexivity|split; vm_compute; reflexivity]].
  apply (c70_duplicate twin_types 1 2
    (Ty ["Pair"] [] (TComposite [Field (Some "a") 0 None []; Field (Some "b") 0 None []]) ["twin"])
    (Ty ["Pair"] [] (TComposite [Field (Some "a") 0 None []; Field (Some "b") 0 None []]) ["twin"]));
    try reflexivity; try discriminate.
  assert (K : forall a b, contains twin_types a b -> exists r r', rank a = Some r /\ rank b = Some r' /\ (r' < r)%nat).
  { intros a b (t & Ht & H). unfold lookup in Ht. cbn [twin_types List.length] in Ht. destruct (N.ltb_spec a (N.of_nat 5)) as [Ha|]; [|discriminate].
    assert (Hc : (a = 0 \/ a = 1 \/ a = 2 \/ a = 3 \/ a = 4)%N) by lia.
    destruct Hc as [-> | [-> | [-> | [-> | ->] ] ] ]; vm_compute in Ht; injection Ht as <-; cbn in H.
    - contradiction.
    - destruct H as (g & [<- | [<- | [] ] ] & <-); exists 1%nat, 0%nat; repeat split; lia.
    - destruct H as (g & [<- | [<- | [] ] ] & <-); exists 1%nat, 0%nat; repeat split; lia.
    - destruct H as [<- | [<- | [<- | [] ] ] ]; [exists 3%nat, 1%nat|exists 3%nat, 1%nat|exists 3%nat, 2%nat]; repeat split; lia.
    - subst b. exists 2%nat, 1%nat. repeat split; lia. }
  intros x H. assert (L : forall a b, clos_trans N (contains twin_types) a b -> exists r r', rank a = Some r /\ rank b = Some r' /\ (r' < r)%nat).
  { induction 1 as [a b H1|a b c _ (r1 & r2 & E1 & E2 & E3) _ (r3 & r4 & E4 & E5 & E6)]; [exact (K _ _ H1)|].
    exists r1, r4. repeat split; try assumption. assert (r2 = r3) by congruence. lia. }
  destruct (L x x H) as (r & r' & E1 & E2 & E3). assert (r = r') by congruence. lia.
Qed.
