(** C55: names, type names, variant names, docs, type parameters and unrecognised paths only
    label; they never influence which bytes are read or what they are read as. *)
From Verif Require Import Base Compact Types Indicators Decode Sign Unchecked Storage Spec Api ApiSign ApiStorage SpecUnchecked
  SpecRename SpecRename2 ProofSim ProofRename ProofRename2 Sample SampleChain.
Local Open Scope list_scope.
Local Open Scope string_scope.

(** Any buffer, any external memory; [g] says how much of the names is compared. *)
Theorem c55_names_only_label : forall (g : reading) (E : Type) (b : buffer E) types1 types2 id pos e,
  same_types g types1 types2 ->
  let run types := decode_as_type_at_position b (portable types) id pos e in
  snd (fst (run types1)) = snd (fst (run types2)) /\ snd (run types1) = snd (run types2) /\
  match fst (fst (run types1)), fst (fst (run types2)) with
  | Ok x1, Ok x2 => bare g (x_data x1) = bare g (x_data x2)
  | Err y1, Err y2 => y1 = y2
  | Panic, Panic | OutOfFuel, OutOfFuel => True
  | _, _ => False
  end.
Proof. intros g E b t1 t2 id pos e H. exact (names_same g b t1 t2 H id pos e). Qed.
Print Assumptions c55_names_only_label.

(** The same for whole blobs: the same blobs are accepted, with the same contents. *)
Theorem c55_whole_blob : forall (g : reading) types1 types2 data id,
  same_types g types1 types2 ->
  match decode_all types1 data id, decode_all types2 data id with
  | Ok x1, Ok x2 => bare g (x_data x1) = bare g (x_data x2)
  | Err y1, Err y2 => y1 = y2
  | Panic, Panic | OutOfFuel, OutOfFuel => True
  | _, _ => False
  end.
Proof.
  intros g t1 t2 data id H. unfold decode_all, decode_all_as_type, decode_all_body, bind, set_pos.
  pose proof (names_same g (@slice_buffer unit data) t1 t2 H id 0 tt) as (Hq & He & Ho). revert Hq He Ho.
  destruct (decode_as_type_at_position (slice_buffer data) (portable t1) id 0 tt) as [[o1 q1] e1].
  destruct (decode_as_type_at_position (slice_buffer data) (portable t2) id 0 tt) as [[o2 q2] e2].
  cbn [fst snd]. intros -> -> Ho. unfold get_pos, ret, fail.
  destruct o1, o2; cbn in Ho; try contradiction; cbn [fst]; auto.
  destruct (Nat.eqb q2 _); cbn [fst]; auto.
Qed.
Print Assumptions c55_whole_blob.

(** Storage entries: the same keys and values are accepted, with the same contents. *)
Theorem c55_storage : forall (g : reading) blake2_128 twox_64 types1 types2 key value entry, same_types g types1 types2 ->
  same_answer (bare_storage g) (storage_entry blake2_128 twox_64 types1 key value entry)
    (storage_entry blake2_128 twox_64 types2 key value entry).
Proof. intros g bl tw t1 t2 key value entry H. exact (proj2 (proj2 (storage_sim g t1 t2 H bl tw (slice_buffer key) (slice_buffer value) entry 0 tt))). Qed.
Print Assumptions c55_storage.

(** Calls of transactions; the type of the calls has the same number. *)
Theorem c55_call : forall (g : reading) ME (c1 c2 : chain ME) data mk, same_types g (ch_types c1) (ch_types c2) -> ch_call c1 = ch_call c2 ->
  same_answer (fun c => bare g (DCall c)) (call_of c1 data mk) (call_of c2 data mk).
Proof.
  intros g ME c1 c2 data mk H Hc.
  exact (proj2 (proj2 (marked_call_sim g _ _ H (chain_metadata c1) (chain_metadata c2) eq_refl eq_refl (slice_buffer data) mk Hc 0 tt))).
Qed.
Print Assumptions c55_call.

(** Unchecked extrinsics. *)
Theorem c55_unchecked : forall (g : reading) ME (c1 c2 : chain ME) data, same_types g (ch_types c1) (ch_types c2) ->
  ch_params c1 = ch_params c2 -> ch_version c1 = ch_version c2 ->
  same_answer (bare_unchecked g) (unchecked_extrinsic c1 data) (unchecked_extrinsic c2 data).
Proof.
  intros g ME c1 c2 data H Hp Hv.
  exact (proj2 (proj2 (unchecked_sim g _ _ H (chain_metadata c1) (chain_metadata c2) eq_refl eq_refl (slice_buffer data) Hp Hv 0 tt))).
Qed.
Print Assumptions c55_unchecked.

(** Misleading names everywhere: every field is called `spec_version` and has type name
    `Balance`, every variant is called `Fail`, every type is documented, and unrecognised
    paths are all the same. *)
Definition scramble_field (f : field) : field := Field (Some "spec_version") (f_ty f) (Some "Balance") ["lies"].
Definition scramble_variant (v : variant) : variant :=
  Variant "Fail" (map scramble_field (v_fields v)) (v_index v) ["more lies"].
Definition scramble (t : ty) : ty :=
  Ty (match known_path (t_path t) with Some p => p | None => ["std"; "fs"; "File"] end) [("T", Some 3%N)]
     (match t_def t with
      | TComposite fs => TComposite (map scramble_field fs)
      | TVariant vs => TVariant (map scramble_variant vs)
      | d => d
      end) ["and docs"].

Example c55_scrambled : same_types no_names sample (map scramble sample).
Proof.
  unfold sample, same_types, same_type. repeat constructor; vm_compute; repeat constructor.
Qed.

(** Both decode the sample; the results differ, but not in what was decoded. *)
Example c55_case : exists x1 x2,
  decode_all sample sample_bytes 10 = Ok x1 /\ decode_all (map scramble sample) sample_bytes 10 = Ok x2 /\
  x1 <> x2 /\ bare no_names (x_data x1) = bare no_names (x_data x2) /\
  bare no_names (x_data x1) <> bare no_names DEmptyEnum.
Proof.
  do 2 eexists. split; [vm_compute; reflexivity|]. split; [vm_compute; reflexivity|].
  split; [intros H; inversion H|]. split; [reflexivity|]. intros H; inversion H.
Qed.

(** The call of the sample chain, read with scrambled names. *)
Definition scrambled_chain : chain string :=
  Chain string (map scramble chain_types) (ch_spec sample_chain) (ch_call sample_chain) (ch_extensions sample_chain)
    (ch_params sample_chain) (ch_version sample_chain).
Example c55_scrambled_chain : same_types no_names (ch_types sample_chain) (ch_types scrambled_chain).
Proof. unfold same_types, same_type. cbn [ch_types sample_chain chain_with scrambled_chain chain_types map]. repeat constructor; vm_compute; repeat constructor. Qed.
Example c55_call_case : exists x1 x2, call_of sample_chain (prefixed the_call ++ mortal_extensions)%list (Marked 1 5) = Ok x1 /\
  call_of scrambled_chain (prefixed the_call ++ mortal_extensions)%list (Marked 1 5) = Ok x2 /\ x1 <> x2 /\
  bare no_names (DCall x1) = bare no_names (DCall x2).
Proof.
  do 2 eexists. split; [vm_compute; reflexivity|]. split; [vm_compute; reflexivity|].
  split; [intros H; inversion H|]. reflexivity.
Qed.

(** The exceptions are real. A path ending in `Era` selects a decoding of its own. *)
Example c55_paths_matter :
  decode_all [Ty ["Era"] [] (TPrimitive (PrU U8)) []] [0]%N 0 = Ok (Ext (DEra Immortal) [Info "" ["Era"]]) /\
  decode_all [Ty ["Error"] [] (TPrimitive (PrU U8)) []] [0]%N 0 = Ok (Ext (DUInt U8 0 SuNone) [Info "" ["Error"]]).
Proof. vm_compute. split; reflexivity. Qed.

(** The type name of the field of a MultiSignature tells the kind of signature. *)
Definition signature_types (type_name : string) : list ty :=
  [Ty ["sp_runtime"; "MultiSignature"] [] (TVariant [Variant "A" [Field None 1 (Some type_name) []] 0 []]) [];
   Ty [] [] (TArray 64 2) [];
   Ty [] [] (TPrimitive (PrU U8)) []].

Example c55_signature_names_matter :
  (exists x, decode_all (signature_types "ed25519::Signature") (0 :: repeat 7 64)%N 0 = Ok (Ext (DFixed KSigEd25519 (repeat 7%N 64)) x)) /\
  (exists v x, decode_all (signature_types "bls::Signature") (0 :: repeat 7 64)%N 0 = Ok (Ext (DVariant v) x)).
Proof. vm_compute. split; repeat eexists. Qed.
