(** C50: only the types reachable from the requested one matter.  Only statements and
    examples; proofs in ProofReach.v, specification in SpecReach.v.

    The statements are equalities of complete outcomes: result or error, final position and
    state of the memory, for arbitrary well-behaved buffers and registries. *)
From Coq Require Import Lia.
From Verif Require Import Base Compact Types Indicators Decode Sign Unchecked Storage Meta Spec SpecWf SpecSource SpecReach
  ProofBase ProofSafe2 ProofReach Sample Api ApiSign ApiStorage SampleChain.
From Verif Require TestWestend.
Local Open Scope string_scope.
Local Open Scope list_scope.

(** C50, one value: registries that agree on the requested type and on everything it needs. *)
Theorem c50_value : forall E (b : buffer E) (r1 r2 : registry E) S id pos e,
  good_buffer b -> good_registry r1 -> good_registry r2 ->
  closed r1 S -> same_on S r1 r2 -> S id ->
  decode_as_type_at_position b r1 id pos e = decode_as_type_at_position b r2 id pos e.
Proof. intros E b r1 r2 S id pos e Hb H1 H2 Hc Hs Hi. exact (at_reach r1 r2 S Hc Hs H1 H2 b id Hb Hi pos e). Qed.
Print Assumptions c50_value.

Theorem c50_all : forall E (b : buffer E) (r1 r2 : registry E) S id e,
  good_buffer b -> good_registry r1 -> good_registry r2 ->
  closed r1 S -> same_on S r1 r2 -> S id ->
  decode_all_as_type b r1 id e = decode_all_as_type b r2 id e.
Proof. intros E b r1 r2 S id e Hb H1 H2 Hc Hs Hi. exact (all_as_type_reach r1 r2 S Hc Hs H1 H2 b id e Hb Hi). Qed.
Print Assumptions c50_all.

(** C50, transactions. *)
Theorem c50_transaction : forall E ME (b : buffer E) (m1 m2 : metadata E ME) S genesis pos e,
  good_buffer b -> good_registry (m_types m1) -> good_registry (m_types m2) -> same_metadata S m1 m2 ->
  parse_transaction b m1 genesis pos e = parse_transaction b m2 genesis pos e.
Proof. intros E ME b m1 m2 S g pos e Hb H1 H2 Hm. exact (transaction_reach m1 m2 S Hm H1 H2 b g Hb pos e). Qed.
Print Assumptions c50_transaction.

Theorem c50_unmarked : forall E ME (b : buffer E) (m1 m2 : metadata E ME) S genesis pos e,
  good_buffer b -> good_registry (m_types m1) -> good_registry (m_types m2) -> same_metadata S m1 m2 ->
  parse_transaction_unmarked b m1 genesis pos e = parse_transaction_unmarked b m2 genesis pos e.
Proof. intros E ME b m1 m2 S g pos e Hb H1 H2 Hm. exact (transaction_unmarked_reach m1 m2 S Hm H1 H2 b g Hb pos e). Qed.
Print Assumptions c50_unmarked.

Theorem c50_unchecked : forall E ME (b : buffer E) (m1 m2 : metadata E ME) S pos e,
  good_buffer b -> good_registry (m_types m1) -> good_registry (m_types m2) -> same_metadata S m1 m2 ->
  decode_as_unchecked_extrinsic b m1 pos e = decode_as_unchecked_extrinsic b m2 pos e.
Proof. intros E ME b m1 m2 S pos e Hb H1 H2 Hm. exact (unchecked_reach m1 m2 S Hm H1 H2 b Hb pos e). Qed.
Print Assumptions c50_unchecked.

(** C50, storage entries. *)
Theorem c50_storage : forall E blake2_128 twox_64 (kb vb : buffer E) (r1 r2 : registry E) S entry pos e,
  good_buffer kb -> good_buffer vb -> good_registry r1 -> good_registry r2 ->
  closed r1 S -> same_on S r1 r2 -> entry_in r1 S (en_ty entry) ->
  decode_as_storage_entry blake2_128 twox_64 kb vb entry r1 pos e =
  decode_as_storage_entry blake2_128 twox_64 kb vb entry r2 pos e.
Proof.
  intros E bl tw kb vb r1 r2 S entry pos e Hk Hv H1 H2 Hc Hs He.
  exact (storage_reach r1 r2 S Hc Hs H1 H2 bl tw kb vb entry Hk Hv He pos e).
Qed.
Print Assumptions c50_storage.

(** ** Metadata held in memory: shortened registries *)

(** All types outside of [ids] are emptied, or cut off at the end. *)
Definition shorten (ids : list N) (n : nat) (types : list ty) : list ty :=
  map (fun x => if existsb (N.eqb (fst x)) ids then snd x else Ty [] [] (TTuple []) [])
      (firstn n (indexed types)).

(** The decidable form of [closed]. *)
Definition closed_check (ids : list N) (types : list ty) : bool :=
  forallb (fun id => match lookup types id with
                     | Some t => forallb (fun j => existsb (N.eqb j) ids) (needs t)
                     | None => true
                     end) ids.

Lemma closed_check_ok ids types : closed_check ids types = true -> closed (@portable unit types) (fun i => In i ids).
Proof.
  unfold closed_check. rewrite forallb_forall. intros H id e t e' Hin Hr. cbn [resolve portable] in Hr. unfold portable_resolve in Hr.
  specialize (H id Hin). destruct (lookup types id) as [t'|] eqn:El; [|discriminate Hr]. injection Hr as -> _.
  rewrite forallb_forall in H. apply Forall_forall. intros j Hj. specialize (H j Hj). rewrite existsb_exists in H.
  destruct H as (k & Hk & Ek). apply N.eqb_eq in Ek. subst k. exact Hk.
Qed.

Lemma indexed_nth types i : nth_error (indexed types) i =
  match nth_error types i with Some t => Some (N.of_nat i, t) | None => None end.
Proof.
  unfold indexed.
  assert (H : forall (l : list ty) k i, nth_error (combine (map N.of_nat (seq k (List.length l))) l) i =
            match nth_error l i with Some t => Some (N.of_nat (k + i), t) | None => None end).
  { induction l as [|y l IH]; intros k [|j]; cbn [List.length seq map combine nth_error]; try reflexivity.
    - rewrite Nat.add_0_r. reflexivity.
    - rewrite IH. replace (S k + j)%nat with (k + S j)%nat by lia. reflexivity. }
  exact (H types 0%nat i).
Qed.

Lemma nth_error_firstn_lt {A} (l : list A) : forall n i, (i < n)%nat -> nth_error (firstn n l) i = nth_error l i.
Proof. induction l as [|x l IH]; intros [|n] [|i] H; try reflexivity; try lia. cbn [firstn nth_error]. apply IH. lia. Qed.

Lemma lookup_nth types id : lookup types id = nth_error types (N.to_nat id).
Proof.
  unfold lookup. destruct (N.ltb_spec id (N.of_nat (List.length types))) as [H|H]; [reflexivity|].
  symmetry. apply nth_error_None. lia.
Qed.

Lemma shorten_same ids n types : Forall (fun i => (i < N.of_nat n)%N) ids ->
  same_on (fun i => In i ids) (@portable unit types) (portable (shorten ids n types)).
Proof.
  intros Hn id e Hin. cbn [resolve portable]. unfold portable_resolve. rewrite !lookup_nth. unfold shorten.
  rewrite Forall_forall in Hn. specialize (Hn id Hin).
  rewrite nth_error_map, (nth_error_firstn_lt _ n (N.to_nat id)) by lia. rewrite indexed_nth.
  destruct (nth_error types (N.to_nat id)) as [t|]; [|reflexivity]. cbn [option_map fst snd]. rewrite N2Nat.id.
  replace (existsb (N.eqb id) ids) with true; [reflexivity|].
  symmetry. apply existsb_exists. exists id. split; [exact Hin|apply N.eqb_refl].
Qed.

Lemma good_portable types : good_registry (@portable unit types).
Proof.
  intros id e t e' H. cbn [resolve portable reg_bound] in *. unfold portable_resolve in H. unfold lookup in H.
  destruct (N.ltb_spec id (N.of_nat (List.length types))); [assumption|discriminate H].
Qed.

(** Decoding with a shortened registry is the same as with the complete one, for every
    input, error or not. *)
Theorem c50_shortened : forall types ids n data id pos,
  closed_check ids types = true -> Forall (fun i => (i < N.of_nat n)%N) ids -> In id ids ->
  decode_at (shorten ids n types) data id pos = decode_at types data id pos /\
  decode_all (shorten ids n types) data id = decode_all types data id.
Proof.
  intros types ids n data id pos Hc Hn Hin.
  pose proof (closed_check_ok _ _ Hc) as C. pose proof (shorten_same ids n types Hn) as Hs.
  assert (Hb : good_buffer (@slice_buffer unit data)) by apply good_slice.
  split.
  - unfold decode_at.
    rewrite (c50_value _ _ _ _ _ id pos tt Hb (good_portable types) (good_portable (shorten ids n types)) C Hs Hin). reflexivity.
  - unfold decode_all.
    rewrite (c50_all _ _ _ _ _ id tt Hb (good_portable types) (good_portable (shorten ids n types)) C Hs Hin). reflexivity.
Qed.
Print Assumptions c50_shortened.

(** Everything needed by [todo], by repeated lookup. *)
Fixpoint gather (fuel : nat) (types : list ty) (todo seen : list N) : list N :=
  match fuel, todo with
  | S fuel, id :: todo =>
      if existsb (N.eqb id) seen then gather fuel types todo seen
      else gather fuel types (match lookup types id with Some t => needs t | None => [] end ++ todo) (id :: seen)
  | _, _ => seen
  end.

(** The hypotheses are met by the Westend metadata: the types of the extensions. *)
Definition extension_ids : list N :=
  match m_signed_extensions TestWestend.md with
  | inl l => flat_map (fun x => [em_ty x; em_additional x]) l
  | inr _ => []
  end.
Definition extension_types_needed : list N := gather 1000 TestWestend.md_types extension_ids [].
Definition with_types {ME} (m : metadata unit ME) (types : list ty) : metadata unit ME :=
  Metadata unit ME (portable types) (m_spec_name_version m) (m_call_ty m) (m_signed_extensions m)
    (m_extrinsic_type_params m) (m_extrinsic_version m).

Example extensions_closed : closed_check extension_types_needed TestWestend.md_types = true.
Proof. vm_compute. reflexivity. Qed.

Example extensions_kept : List.length extension_types_needed = 14%nat /\ List.length TestWestend.md_types = 597%nat.
Proof. vm_compute. split; reflexivity. Qed.

Definition included (l1 l2 : list N) : bool := forallb (fun i => existsb (N.eqb i) l2) l1.
Lemma included_ok l1 l2 : included l1 l2 = true -> forall i, In i l1 -> In i l2.
Proof.
  unfold included. rewrite forallb_forall. intros H i Hi. specialize (H i Hi). apply existsb_exists in H.
  destruct H as (k & Hk & Ek). apply N.eqb_eq in Ek. subst k. exact Hk.
Qed.

Definition roots_of {ME} (m : metadata unit ME) : list N :=
  match m_call_ty m with inl id => [id] | inr _ => [] end ++
  match m_extrinsic_type_params m with inl x => [ep_address x; ep_call x; ep_signature x; ep_extra x] | inr _ => [] end ++
  match m_signed_extensions m with inl l => flat_map (fun x => [em_ty x; em_additional x]) l | inr _ => [] end.

(** Shortening of any metadata held in memory. *)
Lemma shortened_metadata : forall ME (m : metadata unit ME) types ids n, m_types m = portable types ->
  closed_check ids types = true -> forallb (fun i => (i <? n)%N) ids = true -> included (roots_of m) ids = true ->
  same_metadata (fun i => In i ids) m (with_types m (shorten ids (N.to_nat n) types)).
Proof.
  intros ME m types ids n Hm Hc Hn Hi. pose proof (included_ok _ _ Hi) as Hin. unfold roots_of in Hin.
  destruct m as [mt msp mc mx mp mv].
  cbn [m_types m_spec_name_version m_call_ty m_signed_extensions m_extrinsic_type_params m_extrinsic_version] in *. subst mt.
  unfold with_types.
  constructor; cbn [m_types m_spec_name_version m_call_ty m_signed_extensions m_extrinsic_type_params m_extrinsic_version];
    try reflexivity.
  - apply shorten_same. apply Forall_forall. rewrite forallb_forall in Hn. intros i H. specialize (Hn i H).
    apply N.ltb_lt in Hn. lia.
  - apply closed_check_ok, Hc.
  - intros id ->. apply Hin. left. reflexivity.
  - intros l x -> Hx. assert (H : forall i, In i [em_ty x; em_additional x] -> In i ids).
    { intros i H. apply Hin, in_or_app. right. apply in_or_app. right. apply in_flat_map. exists x. auto. }
    split; apply H; cbn [In]; auto.
  - intros x ->. assert (H : forall i, In i [ep_address x; ep_call x; ep_signature x; ep_extra x] -> In i ids).
    { intros i H. apply Hin, in_or_app. right. apply in_or_app. left. exact H. }
    repeat split; apply H; cbn [In]; auto.
Qed.

Definition transaction_ids : list N := gather 4000 TestWestend.md_types (roots_of TestWestend.md) [].

Example transactions_closed : (List.length transaction_ids < 330)%nat /\ closed_check transaction_ids TestWestend.md_types = true
  /\ forallb (fun i => (i <? 597)%N) transaction_ids = true
  /\ included (roots_of TestWestend.md) transaction_ids = true.
Proof. split; [apply Nat.ltb_lt; vm_compute; reflexivity|]. vm_compute. repeat split; reflexivity. Qed.

Definition short_westend := with_types TestWestend.md (shorten transaction_ids (N.to_nat 597) TestWestend.md_types).

Lemma westend_types : m_types TestWestend.md = portable TestWestend.md_types.
Proof. unfold TestWestend.md. cbn [metadata_of_v14 m_types v14_types]. reflexivity. Qed.

Lemma westend_same : same_metadata (fun i => In i transaction_ids) TestWestend.md short_westend.
Proof.
  destruct transactions_closed as (_ & Hc & Hn & Hi).
  exact (shortened_metadata _ _ _ _ _ westend_types Hc Hn Hi).
Qed.

(** About half of the 597 types of Westend can be emptied: every transaction, valid or not,
    marked or unmarked, is answered in the same way. *)
Theorem c50_westend : forall data genesis pos,
  parse_transaction (slice_buffer data) short_westend genesis pos tt =
  parse_transaction (slice_buffer data) TestWestend.md genesis pos tt /\
  decode_as_unchecked_extrinsic (slice_buffer data) short_westend pos tt =
  decode_as_unchecked_extrinsic (slice_buffer data) TestWestend.md pos tt.
Proof.
  intros data g pos. split; symmetry.
  - refine (c50_transaction _ _ _ _ _ _ g pos tt (good_slice data) _ _ westend_same);
      [rewrite westend_types|unfold short_westend, with_types; cbn [m_types]]; apply good_portable.
  - refine (c50_unchecked _ _ _ _ _ _ pos tt (good_slice data) _ _ westend_same);
      [rewrite westend_types|unfold short_westend, with_types; cbn [m_types]]; apply good_portable.
Qed.
Print Assumptions c50_westend.

(** The closure is needed: emptying a type that is reachable changes the result. *)
Example closure_needed : exists types ids data id,
  closed_check ids types = false /\ In id ids /\
  decode_all (shorten ids (List.length types) types) data id <> decode_all types data id.
Proof.
  exists [Ty [] [] (TPrimitive (PrU U8)) []; Ty [] [] (TSequence 0) []], [1%N], [4; 7]%N, 1%N.
  split; [reflexivity|]. split; [left; reflexivity|]. vm_compute. discriminate.
Qed.
