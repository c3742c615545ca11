(** C30-C32: unchecked extrinsics.  Only statements; proofs in ProofUnchecked.v,
    specification in SpecUnchecked.v. *)
From Verif Require Import Base Compact Types Indicators Decode Sign Unchecked Spec SpecWf SpecUnchecked Api ApiSign ProofBase ProofUnchecked
  ProofWf Sample SampleChain.
Local Open Scope string_scope.
Local Open Scope list_scope.

(** C30: an accepted extrinsic announces exactly the number of bytes that follow, has the
    version of the metadata in the low seven bits, and is signed exactly if the top bit is set;
    the bytes after the version byte are encodings of values of the types of the parts. *)
Theorem c30_framed_and_versioned : forall ME (c : chain ME) data u, is_bytes data ->
  unchecked_extrinsic c data = Ok u ->
  exists p v b content, ch_params c = inl p /\ ch_version c = inl v /\
    data = compact_enc (N.of_nat (List.length (b :: content))) ++ b :: content /\
    (b mod 128 = v)%N /\
    ((128 <= b)%N <-> exists address signature extra call, u = UxSigned address signature extra call) /\
    exists rest, parts (ch_types c) p (128 <=? b)%N content u rest.
Proof.
  intros ME c data u Hb H. apply unchecked_sound in H; [|exact Hb]. destruct H as (p & v & b & content & rest & H1 & H2 & [_ H3] & H4 & H5).
  exists p, v, b, content. repeat (split; [assumption|]). split; [|exists rest; exact H5]. rewrite <- N.leb_le.
  split; [intros Hs; rewrite Hs in H5; inversion H5; eauto|intros (a & s & e & d & ->); inversion H5; congruence].
Qed.
Print Assumptions c30_framed_and_versioned.

(** Every answer is the documented one, and that is unique. *)
Theorem c30_documented : forall ME (c : chain ME) data, is_bytes data ->
  unchecked_answer c data (unchecked_extrinsic c data).
Proof. exact @unchecked_ok. Qed.
Print Assumptions c30_documented.

Theorem c30_unique : forall ME (c : chain ME) data o1 o2,
  unchecked_answer c data o1 -> unchecked_answer c data o2 -> o1 = o2.
Proof. exact @unchecked_unique. Qed.
Print Assumptions c30_unique.

(** Too short, too long and wrongly versioned inputs in particular. *)
Theorem c30_wrong_length : forall ME (c : chain ME) p n post, ch_params c = inl p -> is_bytes post ->
  fits U32 n = true -> n <> N.of_nat (List.length post) ->
  unchecked_extrinsic c (compact_enc n ++ post) =
    if (n <? N.of_nat (List.length post))%N
    then Err (UParsing (SomeDataNotUsedBlob (List.length (compact_enc n) + N.to_nat n)))
    else Err (UParsing (PBuffer (DataTooShort (List.length (compact_enc n) + List.length post) (n - N.of_nat (List.length post))))).
Proof.
  intros ME c p n post Hp Hb Hf Hn. eapply unchecked_unique.
  { apply unchecked_ok. apply is_bytes_app. split; [apply compact_enc_bytes, Hf|exact Hb]. }
  destruct (n <? N.of_nat (List.length post))%N eqn:H.
  - apply N.ltb_lt in H. eapply UA_long; eauto.
  - apply N.ltb_ge in H. rewrite <- app_length. eapply UA_short; eauto. apply N.le_neq. split; [exact H|congruence].
Qed.
Print Assumptions c30_wrong_length.

Theorem c30_wrong_version : forall ME (c : chain ME) p v b rest, ch_params c = inl p -> ch_version c = inl v ->
  is_bytes (b :: rest) -> fits U32 (N.of_nat (List.length (b :: rest))) = true -> (b mod 128 <> v)%N ->
  unchecked_extrinsic c (compact_enc (N.of_nat (List.length (b :: rest))) ++ b :: rest) = Err (VersionMismatch b v).
Proof.
  intros ME c p v b rest Hp Hv Hb Hf Hn. eapply unchecked_unique.
  { apply unchecked_ok. apply is_bytes_app. split; [apply compact_enc_bytes, Hf|exact Hb]. }
  eapply UA_version; eauto. split; [exact Hf|reflexivity].
Qed.
Print Assumptions c30_wrong_version.

(** C31: what is encoded is decoded. The version byte is the version, plus 128 if signed. *)
Theorem c31_unsigned : forall ME (c : chain ME) p v vc call info d, acyclic (ch_types c) ->
  ch_params c = inl p -> ch_version c = inl v -> (v < 128)%N ->
  enc (ch_types c) false (ep_call p) vc = Some call ->
  view (ch_types c) false HNone (ep_call p) vc = Some (DCall d, info) ->
  fits U32 (N.of_nat (List.length (v :: call))) = true ->
  unchecked_extrinsic c (compact_enc (N.of_nat (List.length (v :: call))) ++ v :: call) = Ok (UxUnsigned d).
Proof.
  intros ME c p v vc call info d Ha Hp Hv Hl He Hvw Hf. eapply unchecked_complete with (rest := []); eauto.
  - constructor; [eapply N.lt_trans; [exact Hl|reflexivity]|]. eapply enc_bytes, He.
  - rewrite N.mod_small by exact Hl. exact Hv.
  - replace (128 <=? v)%N with false by (symmetry; apply N.leb_gt, Hl).
    rewrite <- (app_nil_r call). eapply UP_unsigned with (x := Ext (DCall d) info); eauto.
Qed.
Print Assumptions c31_unsigned.

Theorem c31_signed : forall ME (c : chain ME) p v va vs ve vc address signature extra call xa xs xe info d,
  acyclic (ch_types c) -> ch_params c = inl p -> ch_version c = inl v -> (v < 128)%N ->
  enc (ch_types c) false (ep_address p) va = Some address ->
  view (ch_types c) false HNone (ep_address p) va = Some (x_data xa, x_info xa) ->
  enc (ch_types c) false (ep_signature p) vs = Some signature ->
  view (ch_types c) false HNone (ep_signature p) vs = Some (x_data xs, x_info xs) ->
  enc (ch_types c) false (ep_extra p) ve = Some extra ->
  view (ch_types c) false HNone (ep_extra p) ve = Some (x_data xe, x_info xe) ->
  enc (ch_types c) false (ep_call p) vc = Some call ->
  view (ch_types c) false HNone (ep_call p) vc = Some (DCall d, info) ->
  forall content, content = (v + 128)%N :: address ++ signature ++ extra ++ call ->
  fits U32 (N.of_nat (List.length content)) = true ->
  unchecked_extrinsic c (compact_enc (N.of_nat (List.length content)) ++ content) = Ok (UxSigned xa xs xe d).
Proof.
  intros ME c p v va vs ve vc address signature extra call xa xs xe info d Ha Hp Hv Hl Ea Va Es Vs Ee Ve Ec Vc content -> Hf.
  assert (Hm : ((v + 128) mod 128 = v)%N).
  { replace (v + 128)%N with (v + 1 * 128)%N by reflexivity. rewrite N.mod_add by discriminate. apply N.mod_small, Hl. }
  eapply unchecked_complete with (rest := []); eauto.
  - constructor; [apply (N.add_lt_mono_r v 128 128), Hl|]. repeat (apply is_bytes_app; split); eapply enc_bytes; eassumption.
  - rewrite Hm. exact Hv.
  - replace (128 <=? v + 128)%N with true by (symmetry; apply N.leb_le, N.le_add_l).
    rewrite <- (app_nil_r call). eapply UP_signed with (x := Ext (DCall d) info); eauto.
Qed.
Print Assumptions c31_signed.

(** C32: the announced length is the only check. Bytes behind the call, inside the announced
    length, are accepted and ignored, whatever they are. So decoding is not complete, and the
    same extrinsic has many accepted encodings. *)
Theorem c32_trailing_bytes_ignored : forall ME (c : chain ME) content extra u, is_bytes (content ++ extra) ->
  fits U32 (N.of_nat (List.length (content ++ extra))) = true ->
  unchecked_extrinsic c (compact_enc (N.of_nat (List.length content)) ++ content) = Ok u ->
  unchecked_extrinsic c (compact_enc (N.of_nat (List.length (content ++ extra))) ++ content ++ extra) = Ok u.
Proof. exact @trailing_ignored. Qed.
Print Assumptions c32_trailing_bytes_ignored.

(** Concrete cases. *)
Definition frame (l : bytes) : bytes := compact_enc (N.of_nat (List.length l)) ++ l.
Definition unsigned_content : bytes := 4%N :: the_call.
Definition signed_content : bytes := 132%N :: genesis ++ other_hash ++ the_call.
Definition shown_hash (l : bytes) : ext pdata := Ext (DHash ShNone l) [Info "" ["primitive_types"; "H256"]].
Definition signed_shown : unchecked :=
  UxSigned (shown_hash genesis) (shown_hash other_hash) (Ext (DTuple []) []) call_data.

Example c30_unsigned_case : unchecked_extrinsic sample_chain (frame unsigned_content) = Ok (UxUnsigned call_data).
Proof. vm_compute. reflexivity. Qed.
Example c30_signed_case : unchecked_extrinsic sample_chain (frame signed_content) = Ok signed_shown.
Proof. vm_compute. reflexivity. Qed.
Example c30_bytes : is_bytes (frame signed_content).
Proof. unfold is_bytes. repeat constructor. Qed.
Example c30_short_case : unchecked_extrinsic sample_chain (24 :: unsigned_content)%N
  = Err (UParsing (PBuffer (DataTooShort 6 1))).
Proof. vm_compute. reflexivity. Qed.
Example c30_long_case : unchecked_extrinsic sample_chain (frame unsigned_content ++ [0%N])
  = Err (UParsing (SomeDataNotUsedBlob 6)).
Proof. vm_compute. reflexivity. Qed.
Example c30_version_case : unchecked_extrinsic sample_chain (frame (133%N :: genesis)) = Err (VersionMismatch 133 4).
Proof. vm_compute. reflexivity. Qed.

Definition hash_value (l : bytes) : value := VRaw l.
Definition call_value : value := VItem 4 3 [VCompact (VNum 1000)].
Example c31_case_hash : enc chain_types false 3 (hash_value genesis) = Some genesis /\
  view chain_types false HNone 3 (hash_value genesis) = Some (x_data (shown_hash genesis), x_info (shown_hash genesis)).
Proof. vm_compute. split; reflexivity. Qed.
Example c31_case_call : enc chain_types false 9 call_value = Some the_call /\
  exists info, view chain_types false HNone 9 call_value = Some (DCall call_data, info).
Proof. vm_compute. split; [reflexivity|]. eexists. reflexivity. Qed.
Example c31_case_acyclic : acyclic (ch_types sample_chain).
Proof. apply wf_acyclic, chain_types_wf. Qed.

(** The counterexample to complete decoding: three bytes left over inside the extrinsic. *)
Theorem c32_case : unchecked_extrinsic sample_chain (frame (unsigned_content ++ [1; 2; 3]%N)) = Ok (UxUnsigned call_data).
Proof. vm_compute. reflexivity. Qed.
