(** C72: V14 and V15 metadata of one runtime.  Only statements; proofs in ProofRuntime.v,
    specification in SpecRuntime.v and SpecMeta.v. *)
From Verif Require Import Base Compact Types Indicators Decode Sign Unchecked Meta Spec SpecSource SpecMeta SpecUnchecked SpecRuntime
  Api ApiSign ProofBase ProofMeta PropDecode PropMeta ProofRuntime SampleChain.
Local Open Scope string_scope.
Local Open Scope list_scope.

Lemma v14_params_ok m params : v14_answer (v14_types m) (v14_extrinsic_ty m) params -> v14_type_params m = params.
Proof. intros H. eapply v14_unique; [apply v14_ok|exact H]. Qed.

(** If the extrinsic type of the V14 metadata names the types of the V15 metadata, all
    parsers answer alike. *)
Theorem c72_transaction : forall m14 m15, one_runtime m14 m15 ->
  v14_answer (v14_types m14) (v14_extrinsic_ty m14) (inl (v15_params m15)) -> forall genesis data,
  same_answer same_error same_parsed (transaction (chain_v15 m15) genesis data) (transaction (chain_v14 m14) genesis data) /\
  same_answer same_error eq (transaction_unmarked (chain_v15 m15) genesis data) (transaction_unmarked (chain_v14 m14) genesis data).
Proof.
  intros m14 m15 Ho Hp g data. apply v14_params_ok in Hp.
  destruct (c11_no_panic_transaction unit v14_err (slice_buffer data) (metadata_of_v14 m14)
    (proj1 (slices_are_good unit data)) (portable_is_good unit (v14_types m14)) g 0 tt) as (R1 & R2 & _).
  split.
  - exact (answer_alike _ _ _ _ (transaction_one m14 m15 Ho Hp (slice_buffer data) g) R1).
  - exact (answer_alike _ _ _ _ (unmarked_one m14 m15 Ho Hp (slice_buffer data) g) R2).
Qed.
Print Assumptions c72_transaction.

Theorem c72_unchecked : forall m14 m15, one_runtime m14 m15 ->
  v14_answer (v14_types m14) (v14_extrinsic_ty m14) (inl (v15_params m15)) -> forall data,
  same_answer same_unchecked_error eq (unchecked_extrinsic (chain_v15 m15) data) (unchecked_extrinsic (chain_v14 m14) data).
Proof.
  intros m14 m15 Ho Hp data. apply v14_params_ok in Hp.
  destruct (c11_no_panic_transaction unit v14_err (slice_buffer data) (metadata_of_v14 m14)
    (proj1 (slices_are_good unit data)) (portable_is_good unit (v14_types m14)) None 0 tt) as (_ & _ & _ & _ & R & _).
  exact (answer_alike _ _ _ _ (unchecked_one m14 m15 Ho Hp (slice_buffer data)) R).
Qed.
Print Assumptions c72_unchecked.

(** If the extrinsic type of the V14 metadata names no such types, the extensions of marked
    transactions are still answered as with V15 metadata, and the call has the error of the
    metadata; everything else has this error whatever the data. *)
Theorem c72_no_params : forall m14 m15 x, one_runtime m14 m15 ->
  v14_answer (v14_types m14) (v14_extrinsic_ty m14) (inr x) -> forall genesis data,
  same_answer same_error
    (fun t t' => tp_extensions t = tp_extensions t' /\ tp_call t' = inr (MetaStructure x))
    (transaction (chain_v15 m15) genesis data) (transaction (chain_v14 m14) genesis data) /\
  transaction_unmarked (chain_v14 m14) genesis data = Err (MetaStructure x) /\
  unchecked_extrinsic (chain_v14 m14) data = Err (UMetaStructure x).
Proof.
  intros m14 m15 x Ho Hp g data. apply v14_params_ok in Hp.
  pose proof (c11_no_panic_transaction unit v14_err (slice_buffer data) (metadata_of_v14 m14)
    (proj1 (slices_are_good unit data)) (portable_is_good unit (v14_types m14)) g 0 tt) as (R1 & _).
  pose proof (c11_no_panic_transaction unit version_err (slice_buffer data) (metadata_of_v15 m15)
    (proj1 (slices_are_good unit data)) (portable_is_good unit (v15_types m15)) g 0 tt) as (R2 & _).
  split; [|split].
  - exact (transaction_none m14 m15 Ho x Hp data g R1 R2).
  - unfold transaction_unmarked, result.
    change (chain_metadata (chain_v14 m14)) with (metadata_of_v14 m14). rewrite (unmarked_none m14 x Hp). reflexivity.
  - unfold unchecked_extrinsic, result.
    change (chain_metadata (chain_v14 m14)) with (metadata_of_v14 m14). rewrite (unchecked_none m14 x Hp). reflexivity.
Qed.
Print Assumptions c72_no_params.

(** One of the two is the case, and each V14 metadata has its V15 metadata. *)
Theorem c72_either : forall m14, exists m15, one_runtime m14 m15 /\
  (v14_answer (v14_types m14) (v14_extrinsic_ty m14) (inl (v15_params m15)) \/
   exists x, v14_answer (v14_types m14) (v14_extrinsic_ty m14) (inr x)).
Proof.
  intros m14. pose proof (v14_ok m14) as H. destruct (v14_type_params m14) as [ps|x] eqn:E.
  - exists (MetadataV15 (v14_types m14) (v14_pallets m14) ps (v14_extrinsic_version m14) (v14_signed_extensions m14)).
    split; [constructor; reflexivity|]. left. cbn [v15_params]. exact H.
  - exists (MetadataV15 (v14_types m14) (v14_pallets m14) (ExtrinsicParams 0 0 0 0) (v14_extrinsic_version m14) (v14_signed_extensions m14)).
    split; [constructor; reflexivity|]. right. exists x. exact H.
Qed.
Print Assumptions c72_either.

(** Concrete metadata: those of C33 and C34. *)
Example c72_case_one : one_runtime meta14 meta15.
Proof. constructor; reflexivity. Qed.
Example c72_case_params : v14_answer (v14_types meta14) (v14_extrinsic_ty meta14) (inl (v15_params meta15)).
Proof.
  assert (H : m_extrinsic_type_params (metadata_of_v14 meta14) = inl (v15_params meta15)) by (vm_compute; reflexivity).
  rewrite <- H. apply c33_v14.
Qed.
Example c72_case_unchecked : unchecked_extrinsic (chain_v15 meta15) (20 :: 4 :: the_call)%N = Ok (UxUnsigned call_data) /\
  unchecked_extrinsic (chain_v14 meta14) (20 :: 4 :: the_call)%N = Ok (UxUnsigned call_data).
Proof. split; vm_compute; reflexivity. Qed.
Example c72_case_transaction : exists xs,
  transaction (chain_v15 meta15) (Some genesis) (prefixed the_call ++ mortal_extensions) = Ok (TransactionParsed (inl call_data) xs) /\
  transaction (chain_v14 meta14) (Some genesis) (prefixed the_call ++ mortal_extensions) = Ok (TransactionParsed (inl call_data) xs) /\
  List.length xs = 6.
Proof. eexists. split; [vm_compute; reflexivity|]. split; [vm_compute; reflexivity|]. reflexivity. Qed.
(** Metadata without a pallet "System": the errors of the two versions of metadata. *)
Example c72_case_error :
  transaction (chain_v15 (MetadataV15 meta_types [] (ExtrinsicParams 3 9 3 5) 4 [check_version])) None (prefixed the_call ++ version_bytes) =
    Err (MetaStructure NoSystemPallet) /\
  transaction (chain_v14 (MetadataV14 meta_types [] 14 4 [check_version])) None (prefixed the_call ++ version_bytes) =
    Err (MetaStructure (V14Version NoSystemPallet)).
Proof. split; vm_compute; reflexivity. Qed.
(** V14 metadata whose extrinsic type is a text. *)
Definition text14 := MetadataV14 meta_types the_pallets 15 4 [check_version; check_genesis; check_mortality].
Example c72_case_no_params : one_runtime text14 meta15 /\  v14_answer (v14_types text14) (v14_extrinsic_ty text14) (inr (UnexpectedExtrinsicType 15)) /\ exists xs, transaction (chain_v14 text14) (Some genesis) (prefixed the_call ++ mortal_extensions) =
    Ok (TransactionParsed (inr (MetaStructure (UnexpectedExtrinsicType 15))) xs) /\ List.length xs = 6.
Proof.
  split; [constructor; reflexivity|]. split.
  - assert (H : m_extrinsic_type_params (metadata_of_v14 text14) = inr (UnexpectedExtrinsicType 15)) by (vm_compute; reflexivity).
    rewrite <- H. apply c33_v14.
  - eexists. split; [vm_compute; reflexivity|reflexivity].
Qed.
