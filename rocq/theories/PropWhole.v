(** C63: the answers of the parsers, told with encodings only.  Only statements; proofs in
    ProofWhole.v, specification in SpecWhole.v and SpecFault.v. *)
From Coq Require Import Lia.
From Verif Require Import Base Compact Types Indicators Decode Sign Storage Unchecked Meta Spec SpecReach SpecKinds SpecBlame SpecFault ApiSign ApiStorage Api SpecSign
  SpecStorage SpecUnchecked SpecMeta SpecWhole Sample SampleChain CheckWf CheckUsable ProofCompact ProofWhole ProofKey ProofMeta PropFault PropStorage PropUnchecked PropMeta PropKey.
From Verif Require TestWestend TestStatemint.
Local Open Scope string_scope.
Local Open Scope list_scope.

(** Signable transactions with the length of the call in front, for usable types of the call and
    of the extensions: the answer is exactly the one told in SpecWhole.v. *)
Theorem c63_transaction : forall ME (c : chain ME) g data, is_bytes data -> signable_usable c ->
  forall o, transaction c g data = o <-> transaction_told c g data o.
Proof.
  intros ME c g data Hb Hu o. pose proof (gives_transaction c g data Hb Hu) as H.
  split; [intros <-; exact H|intros H2; exact (transaction_told_unique _ _ _ _ _ H H2)].
Qed.
Print Assumptions c63_transaction.

(** ... without the length. *)
Theorem c63_unmarked : forall ME (c : chain ME) g data, is_bytes data -> signable_usable c ->
  forall o, transaction_unmarked c g data = o <-> transaction_unmarked_told c g data o.
Proof.
  intros ME c g data Hb Hu o. pose proof (gives_unmarked c g data Hb Hu) as H.
  split; [intros <-; exact H|intros H2; exact (transaction_unmarked_told_unique _ _ _ _ _ H H2)].
Qed.
Print Assumptions c63_unmarked.

(** Unchecked extrinsics. *)
Theorem c63_unchecked : forall ME (c : chain ME) data, is_bytes data -> params_usable c ->
  forall o, unchecked_extrinsic c data = o <-> unchecked_told c data o.
Proof.
  intros ME c data Hb Hu o. pose proof (gives_unchecked c data Hb Hu) as H.
  split; [intros <-; exact H|intros H2; exact (unchecked_told_unique _ _ _ _ H H2)].
Qed.
Print Assumptions c63_unchecked.

(** Storage entries. *)
Theorem c63_storage : forall blake2_128 twox_64 types key value entry, is_bytes key -> is_bytes value -> entry_usable types entry ->
  forall o, storage_entry blake2_128 twox_64 types key value entry = o <-> entry_told blake2_128 twox_64 types key value entry o.
Proof.
  intros b t6 types key value entry Hk Hv Hu o. pose proof (gives_entry b t6 types key Hk value entry Hv Hu) as H.
  split; [intros <-; exact H|intros H2; exact (entry_told_unique _ _ _ _ _ _ _ _ H H2)].
Qed.
Print Assumptions c63_storage.

(** Storage keys, from any position. *)
Theorem c63_key : forall blake2_128 twox_64 types hashers kt key start, is_bytes key -> (start <= List.length key)%nat ->
  key_usable types hashers kt ->
  (forall k, process_key blake2_128 twox_64 types hashers kt key start = Ok k <-> key_told blake2_128 twox_64 types key hashers kt start (inl k)) /\
  (forall y, process_key blake2_128 twox_64 types hashers kt key start = Err y <-> key_told blake2_128 twox_64 types key hashers kt start (inr y)).
Proof.
  intros b t6 types hs kt key start Hk Hp Hu. destruct (c58_documented b t6 types hs kt key start Hk Hp) as (r & Ha & He).
  pose proof (gives_key b t6 types key Hk hs kt start r Hu Hp Ha) as H. rewrite He. clear He.
  split; intros z; (split; [intros Hz; destruct r; try discriminate; congruence|]); intros Hz;
    pose proof (key_told_unique _ _ _ _ _ _ _ _ _ H Hz) as Hr; subst r; reflexivity.
Qed.
Print Assumptions c63_key.

(** The runtime version in V14 and V15 metadata. *)
Theorem c63_version_v15 : forall m, version_usable (v15_types m) (v15_pallets m) ->
  forall r, m_spec_name_version (metadata_of_v15 m) = r <-> version_told (v15_types m) (v15_pallets m) r.
Proof.
  intros m Hu r. rewrite (version_as_answered _ _ Hu). pose proof (c34_v15 m) as H.
  split; [intros <-; exact H|intros H2; exact (c34_unique _ _ _ _ H H2)].
Qed.
Print Assumptions c63_version_v15.

Theorem c63_version_v14 : forall m, version_usable (v14_types m) (v14_pallets m) ->
  (forall x, m_spec_name_version (metadata_of_v14 m) = inl x <-> version_told (v14_types m) (v14_pallets m) (inl x)) /\
  (forall y, m_spec_name_version (metadata_of_v14 m) = inr (V14Version y) <-> version_told (v14_types m) (v14_pallets m) (inr y)).
Proof.
  intros m Hu. destruct (c34_v14 m _ eq_refl) as (r & Ha & Hr). split; intros z; rewrite (version_as_answered _ _ Hu); split; intros H.
  - destruct r; congruence.
  - pose proof (c34_unique _ _ _ _ Ha H) as ->. exact Hr.
  - destruct r; rewrite H in Hr; [discriminate|]. injection Hr as ->. exact Ha.
  - pose proof (c34_unique _ _ _ _ Ha H) as ->. exact Hr.
Qed.
Print Assumptions c63_version_v14.

(** In any registry there is at most one such answer. *)
Theorem c63_one_answer : forall ME (c : chain ME) g data blake2_128 twox_64 types key value entry,
  (forall o1 o2, transaction_told c g data o1 -> transaction_told c g data o2 -> o1 = o2) /\
  (forall o1 o2, transaction_unmarked_told c g data o1 -> transaction_unmarked_told c g data o2 -> o1 = o2) /\
  (forall o1 o2, unchecked_told c data o1 -> unchecked_told c data o2 -> o1 = o2) /\
  (forall o1 o2, entry_told blake2_128 twox_64 types key value entry o1 -> entry_told blake2_128 twox_64 types key value entry o2 -> o1 = o2).
Proof.
  intros ME c g data b t6 types key value entry. split; [|split; [|split] ]; intros o1 o2.
  - apply transaction_told_unique.
  - apply transaction_unmarked_told_unique.
  - apply unchecked_told_unique.
  - apply entry_told_unique.
Qed.
Print Assumptions c63_one_answer.

(** ** The hypotheses are met *)

(** Everything in the types of these real chains can be used. *)
Theorem westend_usable : forall id, (id < N.of_nat (List.length TestWestend.md_types))%N -> usable TestWestend.md_types id.
Proof. apply (usable_ranked_ok _ (ranks TestWestend.md_types 12)). vm_compute. reflexivity. Qed.
Print Assumptions westend_usable.

Theorem statemint_usable : forall id, (id < N.of_nat (List.length TestStatemint.md_types))%N -> usable TestStatemint.md_types id.
Proof. apply (usable_ranked_ok _ (ranks TestStatemint.md_types 12)). vm_compute. reflexivity. Qed.
Print Assumptions statemint_usable.

Lemma sample_usable id : (id < 13)%N -> usable chain_types id.
Proof. intros H. apply (usable_ranked_ok _ (ranks chain_types 5)); [vm_compute; reflexivity|exact H]. Qed.

Example c63_sample : signable_usable sample_chain /\ params_usable sample_chain.
Proof.
  split; [split|].
  - intros id H. injection H as <-. apply sample_usable. reflexivity.
  - intros l H. injection H as <-. apply Forall_forall. intros [i id] Hin. apply sample_usable. cbn [snd]. cbn in Hin.
    repeat (destruct Hin as [Hin|Hin]; [apply (f_equal snd) in Hin; cbn [snd] in Hin; subst id; reflexivity|]). contradiction.
  - intros p H. injection H as <-. cbn. repeat split; apply sample_usable; reflexivity.
Qed.

Lemma storage_usable id : (id < 3)%N -> usable storage_types id.
Proof. intros H. apply (usable_ranked_ok _ (ranks storage_types 5)); [vm_compute; reflexivity|exact H]. Qed.

Example c63_storage_case : entry_usable storage_types tuple_entry.
Proof.
  cbn. split; [apply storage_usable; reflexivity|]. split; [discriminate|]. intros t ids h id Hl Ht Hin _. vm_compute in Hl. injection Hl as <-. cbn in Ht. injection Ht as <-.
  cbn in Hin. apply storage_usable. repeat (destruct Hin as [Hin|Hin]; [apply (f_equal snd) in Hin; cbn [snd] in Hin; subst id; reflexivity|]). contradiction.
Qed.

(** Told by hand: a transaction without a call in it, an unchecked extrinsic that is too long, a
    key with a wrong hash. *)
Example c63_by_hand :
  transaction_told sample_chain None [] (Err CutSignable) /\
  unchecked_told sample_chain [0; 7]%N (Err (UParsing (SomeDataNotUsedBlob 1))) /\
  entry_told (fake 16) (fake 8) storage_types (firstn 10 tuple_key) [] tuple_entry (Err KeyShorterThanPrefix) /\
  (exists xs, transaction_told sample_chain None (prefixed the_call ++ mortal_extensions) (Ok (TransactionParsed (inl call_data) xs))).
Proof.
  split; [|split; [|split] ].
  - apply T_cut. intros n call rest _ Hd _. symmetry in Hd. apply app_eq_nil in Hd. exact (compact_enc_nonempty _ (proj1 Hd)).
  - apply (UT_long sample_chain [0; 7]%N _ 0 [7%N] eq_refl); vm_compute; reflexivity.
  - apply ET_short. vm_compute. lia.
  - assert (Hb : is_bytes (prefixed the_call ++ mortal_extensions)).
    { apply Forall_forall. intros x Hx. assert (Ha : forallb (fun y => (y <? 256)%N) (prefixed the_call ++ mortal_extensions) = true) by (vm_compute; reflexivity).
      rewrite forallb_forall in Ha. apply N.ltb_lt, Ha, Hx. }
    pose proof (proj1 (c63_transaction _ sample_chain None _ Hb (proj1 c63_sample) _) eq_refl) as H.
    assert (He : exists xs, transaction sample_chain None (prefixed the_call ++ mortal_extensions) = Ok (TransactionParsed (inl call_data) xs)) by (eexists; vm_compute; reflexivity).
    destruct He as [xs He]. exists xs. rewrite He in H. exact H.
Qed.
