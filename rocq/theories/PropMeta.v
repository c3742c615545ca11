(** C33, C34: V14 and V15 metadata.  Only statements; proofs in ProofMeta.v, specification in
    SpecMeta.v. *)
From Verif Require Import Base Compact Types Indicators Decode Sign Unchecked Meta Spec SpecWf SpecMeta SpecUnchecked Api ApiSign ProofBase ProofCor ProofWf
  ProofSee ProofMeta ProofNamed Sample SampleChain.
Local Open Scope string_scope.
Local Open Scope list_scope.

(** C33: the types of the parts of V14 extrinsics, in every case. *)
Theorem c33_v14 : forall m, v14_answer (v14_types m) (v14_extrinsic_ty m) (m_extrinsic_type_params (metadata_of_v14 m)).
Proof. exact v14_ok. Qed.
Print Assumptions c33_v14.

Theorem c33_v14_unique : forall types id r1 r2, v14_answer types id r1 -> v14_answer types id r2 -> r1 = r2.
Proof. exact v14_unique. Qed.
Print Assumptions c33_v14_unique.

(** In particular: a struct at the usual path around a vector of u8, with its parameters in
    any order among others. *)
Theorem c33_usual : forall m t f ft i it a c s e,
  lookup (v14_types m) (v14_extrinsic_ty m) = Some t ->
  t_path t = ["sp_runtime"; "generic"; "unchecked_extrinsic"; "UncheckedExtrinsic"] -> t_def t = TComposite [f] ->
  lookup (v14_types m) (f_ty f) = Some ft -> t_def ft = TSequence i ->
  lookup (v14_types m) i = Some it -> t_def it = TPrimitive (PrU U8) ->
  named "Address" (t_params t) a -> named "Call" (t_params t) c ->
  named "Signature" (t_params t) s -> named "Extra" (t_params t) e ->
  m_extrinsic_type_params (metadata_of_v14 m) = inl (ExtrinsicParams a c s e) /\
  m_call_ty (metadata_of_v14 m) = inl c.
Proof.
  intros m t f ft i it a c s e H1 H2 H3 H4 H5 H6 H7 Ha Hc Hs He.
  assert (H : v14_type_params m = inl (ExtrinsicParams a c s e)).
  { eapply v14_unique; [apply v14_ok|]. eapply V14_params with (id := v14_extrinsic_ty m) (t := t) (i := i); eauto.
    - apply LE_end; auto. unfold transparent. destruct (classify t) eqn:Hk; auto. rewrite H2. reflexivity.
    - rewrite H3. eapply EL_struct; eauto.
    - apply PA_all; assumption. }
  split; [exact H|]. unfold metadata_of_v14. cbn [m_call_ty]. rewrite H. reflexivity.
Qed.
Print Assumptions c33_usual.

(** The call type is always the one of the parameters. *)
Theorem c33_call : forall m,
  m_call_ty (metadata_of_v14 m) =
    match m_extrinsic_type_params (metadata_of_v14 m) with inl p => inl (ep_call p) | inr x => inr x end.
Proof. intros m. cbn. destruct (v14_type_params m); reflexivity. Qed.
Print Assumptions c33_call.

(** V15 has them in place; and all metadata keep their extensions and extrinsic version. *)
Theorem c33_v15 : forall types pallets params version extensions,
  let m := metadata_of_v15 (MetadataV15 types pallets params version extensions) in
  m_extrinsic_type_params m = inl params /\ m_call_ty m = inl (ep_call params) /\
  m_extrinsic_version m = inl version /\ m_signed_extensions m = inl extensions.
Proof. intros. repeat split. Qed.
Print Assumptions c33_v15.

Theorem c33_chains : forall m14 m15,
  chain_metadata (chain_v14 m14) = metadata_of_v14 m14 /\ chain_metadata (chain_v15 m15) = metadata_of_v15 m15.
Proof. intros. split; reflexivity. Qed.
Print Assumptions c33_chains.

(** C34: the runtime version, in every case. *)
Theorem c34_v14 : forall m r, m_spec_name_version (metadata_of_v14 m) = r ->
  exists r', version_answer (v14_types m) (v14_pallets m) r' /\
    match r' with inl x => r = inl x | inr y => r = inr (V14Version y) end.
Proof.
  intros m r <-. exists (spec_name_version_of (v14_types m) (v14_pallets m)). split; [apply version_ok|].
  unfold metadata_of_v14. cbn [m_spec_name_version]. destruct (spec_name_version_of _ _); reflexivity.
Qed.
Print Assumptions c34_v14.

Theorem c34_v15 : forall m, version_answer (v15_types m) (v15_pallets m) (m_spec_name_version (metadata_of_v15 m)).
Proof. intros m. apply version_ok. Qed.
Print Assumptions c34_v15.

Theorem c34_unique : forall types pallets r1 r2,
  version_answer types pallets r1 -> version_answer types pallets r2 -> r1 = r2.
Proof. exact version_unique. Qed.
Print Assumptions c34_unique.

(** In particular: if the constant encodes a value with one field labelled as spec version and
    one labelled as spec name, these are reported. *)
Theorem c34_encoded : forall types pallets p value id v fields i version name, acyclic types ->
  system_pallet pallets p -> version_in p value id ->
  enc types false id v = Some value -> view types false HNone id v = Some (DComposite fields, i) ->
  spec_versions fields = [version] -> spec_names fields = [name] ->
  spec_name_version_of types pallets = inl (SpecNameVersion (dec_string version) name).
Proof.
  intros types pallets p value id v fields i version name Ha Hs Hv He Hw H1 H2.
  eapply version_unique; [apply version_ok|].
  refine (VA_fields types pallets p value id (Ext (DComposite fields) i) fields _ Hs Hv _ eq_refl (FA_both _ _ _ H1 H2)).
  pose proof (round_trip_acyclic types id v value _ _ [] [] Ha He Hw (Forall_nil _)) as Hd. cbn [app List.length] in Hd.
  rewrite app_nil_r in Hd. pose proof (whole_blob types value id) as Hb. rewrite Hd in Hb. cbn [Nat.add] in Hb.
  rewrite Nat.eqb_refl in Hb. exact Hb.
Qed.
Print Assumptions c34_encoded.

(** The labelled fields are those called "spec_version" and "spec_name" in the metadata. *)
Theorem c34_labels_are_names : forall types value id x l, is_bytes value ->
  decode_all types value id = Ok x -> x_data x = DComposite l ->
  spec_versions l = flat_map named_version l /\ spec_names l = flat_map named_name l.
Proof. exact decoded_named. Qed.
Print Assumptions c34_labels_are_names.

(** So: if the constant is decoded as a struct, with one integer called "spec_version" and
    one text called "spec_name", then these are reported, and nothing else ever is. *)
Theorem c34_named : forall types pallets p value id x l version name, is_bytes value ->
  system_pallet pallets p -> version_in p value id -> decode_all types value id = Ok x -> x_data x = DComposite l ->
  (spec_name_version_of types pallets = inl (SpecNameVersion (dec_string version) name) <->
   flat_map named_version l = [version] /\ flat_map named_name l = [name]).
Proof.
  intros types pallets p value id x l version name Hb Hs Hv Hd Hx.
  destruct (decoded_named types value id x l Hb Hd Hx) as [<- <-]. split.
  - intros H. pose proof (version_ok types pallets) as Ha. rewrite H in Ha.
    assert (Hf : fields_answer l (inl (SpecNameVersion (dec_string version) name))).
    { pose proof (fields_ok (x_data x)) as Hf. rewrite Hx in Hf.
      pose proof (VA_fields types pallets p value id x l _ Hs Hv Hd Hx Hf) as Hg. rewrite (version_unique _ _ _ _ Ha Hg). exact Hf. }
    inversion Hf as [v n E1 E2 [E3 E4]| | | |]; subst. apply dec_inj in E3. subst. auto.
  - intros [H1 H2]. eapply version_unique; [apply version_ok|]. exact (VA_fields _ _ p value id x l _ Hs Hv Hd Hx (FA_both _ _ _ H1 H2)).
Qed.
Print Assumptions c34_named.

(** Concrete metadata. *)
Definition meta_types : list ty := chain_types ++
  [ (* 13 *) Ty [] [] (TSequence 0) [];
    (* 14 *) Ty ["sp_runtime"; "generic"; "unchecked_extrinsic"; "UncheckedExtrinsic"]
               [("Address", Some 3%N); ("Call", Some 9%N); ("Signature", Some 3%N); ("Extra", Some 5%N)]
               (TComposite [Field None 13 None []]) [];
    (* 15 *) Ty [] [] (TPrimitive PrStr) [];
    (* 16 *) Ty ["sp_version"; "RuntimeVersion"] []
               (TComposite [Field (Some "spec_name") 15 None []; Field (Some "impl_name") 15 None [];
                            Field (Some "spec_version") 1 None []]) [] ].
Definition version_bytes_const : bytes := [16; 116; 101; 115; 116; 4; 120; 50; 35; 0; 0]%N.
Definition the_pallets : list pallet :=
  [Pallet "Other" [Constant "Version" [] 0]; Pallet "System" [Constant "Limit" [] 0; Constant "Version" version_bytes_const 16];
   Pallet "System" [Constant "Version" [] 0]].
Definition meta14 := MetadataV14 meta_types the_pallets 14 4 [check_version; check_genesis; check_mortality].
Definition meta15 := MetadataV15 meta_types the_pallets (ExtrinsicParams 3 9 3 5) 4 [check_version; check_genesis; check_mortality].

Example c33_case : m_extrinsic_type_params (metadata_of_v14 meta14) = inl (ExtrinsicParams 3 9 3 5).
Proof. vm_compute. reflexivity. Qed.
Example c33_case_missing : m_extrinsic_type_params (metadata_of_v14 (MetadataV14 meta_types the_pallets 13 4 [])) = inr NoAddressParam.
Proof. vm_compute. reflexivity. Qed.
Example c33_case_other : m_extrinsic_type_params (metadata_of_v14 (MetadataV14 meta_types the_pallets 15 4 [])) = inr (UnexpectedExtrinsicType 15).
Proof. vm_compute. reflexivity. Qed.
Example c34_case : m_spec_name_version (metadata_of_v15 meta15) = inl (SpecNameVersion "9010" [116; 101; 115; 116]%N).
Proof. vm_compute. reflexivity. Qed.
Example c34_case_named : exists x l, decode_all meta_types version_bytes_const 16 = Ok x /\ x_data x = DComposite l /\
  flat_map named_version l = [9010]%N /\ flat_map named_name l = [[116; 101; 115; 116]]%N.
Proof. do 2 eexists. split; [vm_compute; reflexivity|]. vm_compute. auto. Qed.
Example c34_case_acyclic : acyclic meta_types.
Proof. apply wf_acyclic, wf_check_ok. vm_compute. reflexivity. Qed.
Example c34_case_value : enc meta_types false 16 (VStruct [VStr [116; 101; 115; 116]; VStr [120]; VNum 9010])%N = Some version_bytes_const.
Proof. vm_compute. reflexivity. Qed.
Example c34_case_system : exists p, system_pallet the_pallets p /\ version_in p version_bytes_const 16.
Proof.
  eexists. split.
  - exists [Pallet "Other" [Constant "Version" [] 0]]. eexists. repeat split. intros [H|[]]. discriminate.
  - exists [Constant "Limit" [] 0]. eexists. split; [reflexivity|]. intros [].
Qed.
Example c34_case_repeated : m_spec_name_version (metadata_of_v15 (MetadataV15
    [Ty [] [] (TPrimitive (PrU U8)) [];
     Ty [] [] (TComposite [Field (Some "spec_version") 0 None []; Field (Some "spec_version") 0 None []]) []]
    [Pallet "System" [Constant "Version" [1; 2]%N 1]] (ExtrinsicParams 0 0 0 0) 4 [])) = inr SpecVersionIdentifierTwice.
Proof. vm_compute. reflexivity. Qed.
(** A whole extrinsic with V14 metadata. *)
Example c33_case_extrinsic : unchecked_extrinsic (chain_v14 meta14) (20 :: 4 :: the_call)%N = Ok (UxUnsigned call_data).
Proof. vm_compute. reflexivity. Qed.
