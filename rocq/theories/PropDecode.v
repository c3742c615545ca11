(** C03-C11, C14: decoding types.  Only statements; proofs in ProofCor.v and the files it
    uses.  Specification of values, encodings and parsed forms: Spec.v, SpecWf.v; of
    sources: SpecSource.v; in-memory calls: Api.v. *)
From Coq Require Import Relations.
From Verif Require Import Base Compact Types Indicators Decode Sign Unchecked Storage Spec SpecWf
  SpecSource Api ProofCor ProofSafe2 Sample.
Local Open Scope list_scope.

(** C03: in a well-formed registry every value of every type has a parsed form, and its
    encoding, anywhere in a buffer, is decoded to that form and used up exactly. *)
Theorem c03_round_trip : forall types id v bs pre post,
  well_formed types -> enc types false id v = Some bs -> is_bytes (pre ++ post) ->
  exists d l, view types false HNone id v = Some (d, l) /\
  decode_at types (pre ++ bs ++ post) id (List.length pre) =
    (Ok (Ext d l), (List.length pre + List.length bs)%nat).
Proof. exact round_trip. Qed.
Print Assumptions c03_round_trip.

(** The same in any acyclic registry (possibly with dangling references elsewhere), for
    the values that have a parsed form. *)
Theorem c03_round_trip_acyclic : forall types id v bs d l pre post,
  acyclic types -> enc types false id v = Some bs -> view types false HNone id v = Some (d, l) ->
  is_bytes (pre ++ post) ->
  decode_at types (pre ++ bs ++ post) id (List.length pre) =
    (Ok (Ext d l), (List.length pre + List.length bs)%nat).
Proof. exact round_trip_acyclic. Qed.
Print Assumptions c03_round_trip_acyclic.

Example c03_example : well_formed sample_wf /\ enc sample_wf false 10 sample_value = Some sample_bytes /\
  exists x, decode_at sample_wf ([9; 9] ++ sample_bytes ++ [1; 2; 3])%N 10 2 = (Ok x, 36%nat).
Proof. split; [exact sample_well_formed|split; [apply sample_enc|]]. eexists. vm_compute. reflexivity. Qed.

(** C04: whatever the registry, if decoding succeeds then the bytes it consumed are the
    encoding of a value of that type, and what it returned is the parsed form. *)
Theorem c04_sound : forall types data id pos x q, is_bytes data ->
  decode_at types data id pos = (Ok x, q) ->
  exists v, enc types false id v = Some (slice data pos (q - pos)) /\
    view types false HNone id v = Some (x_data x, x_info x) /\
    (q = pos + List.length (slice data pos (q - pos)))%nat.
Proof. exact only_what_is_there. Qed.
Print Assumptions c04_sound.

(** Also in a registry with a self-containing type (sample, type 14). *)
Example c04_example : exists x,
  decode_at sample ([9; 9] ++ sample_bytes ++ [1; 2; 3])%N 10 2 = (Ok x, 36%nat).
Proof. eexists. vm_compute. reflexivity. Qed.

(** C05: for any well-behaved source (with any external memory), success or failure. *)
Theorem c05_position_bounds : forall (E : Type) (b : buffer E) (r : registry E),
  good_buffer b -> good_registry r -> forall id pos e o q e',
  decode_as_type_at_position b r id pos e = (o, q, e') -> (pos <= total_len b)%nat ->
  (pos <= q <= total_len b)%nat.
Proof. intros E b r Hb Hr. exact (position_bounds b r Hb Hr). Qed.
Print Assumptions c05_position_bounds.

(** In-memory data and registries are well-behaved sources. *)
Theorem slices_are_good : forall (E : Type) data, good_buffer (@slice_buffer E data) /\ all_readable (@slice_buffer E data).
Proof. intros E data. split; [apply good_slice|apply readable_slice]. Qed.
Print Assumptions slices_are_good.
Theorem portable_is_good : forall (E : Type) types, good_registry (@portable E types).
Proof. intros E types. apply good_portable. Qed.
Print Assumptions portable_is_good.

Example c05_example : exists x, decode_at sample [1; 7; 0; 0; 0; 39; 0; 0]%N 10 0 = (Err x, 5%nat).
Proof. eexists. vm_compute. reflexivity. Qed.

(** C06: the consumed bytes, at any place of any other data, give the same result. *)
Theorem c06_locality : forall types data id pos x q pre post,
  is_bytes data -> is_bytes (pre ++ post) ->
  decode_at types data id pos = (Ok x, q) ->
  decode_at types (pre ++ slice data pos (q - pos) ++ post) id (List.length pre) =
    (Ok x, (List.length pre + (q - pos))%nat).
Proof. exact locality. Qed.
Print Assumptions c06_locality.

(** C07: data cut before the end of what was consumed is refused. *)
Theorem c07_cut_fails : forall types data id pos x q n,
  is_bytes data -> decode_at types data id pos = (Ok x, q) -> (pos < q)%nat -> (n < q)%nat ->
  exists y q', decode_at types (firstn n data) id pos = (Err y, q').
Proof. exact cut_fails. Qed.
Print Assumptions c07_cut_fails.

(** C08: if the encoding of one value starts with the encoding of another, both are the
    same bytes and have the same parsed form. *)
Theorem c08_unique_reading : forall types id v1 v2 b1 b2 rest,
  well_formed types ->
  enc types false id v1 = Some b1 -> enc types false id v2 = Some b2 -> b2 = b1 ++ rest ->
  rest = [] /\ view types false HNone id v1 = view types false HNone id v2.
Proof. exact unique_reading. Qed.
Print Assumptions c08_unique_reading.

(** C09: with any recursion depth from (length + 1) * (types + 3) + 1 on, decoding returns
    a value or an error, the same one. *)
Theorem c09_terminates : forall (E : Type) (b : buffer E) (r : registry E),
  good_buffer b -> good_registry r -> forall id pos e depth,
  (S (S (total_len b) * (reg_bound r + 3)) <= depth)%nat ->
  returns (fst (fst (decode b r depth (Symbol id) propagated_new pos e))) /\
  decode b r depth (Symbol id) propagated_new pos e = decode_as_type_at_position b r id pos e.
Proof. intros E b r Hb Hr. exact (depth_bound b r Hb Hr). Qed.
Print Assumptions c09_terminates.

(** A cyclic type: reported as such. *)
Example c09_example : decode_at sample [1; 2; 3]%N 14 0 =
  (Err (PRegistry (RInternal (CyclicMetadata 14))), 0%nat).
Proof. vm_compute. reflexivity. Qed.

(** C10: the reported type contains itself without an enum or a vector in between. *)
Theorem c10_cyclic_is_true : forall types data id pos i q,
  decode_at types data id pos = (Err (PRegistry (RInternal (CyclicMetadata i))), q) ->
  clos_trans N (contains types) i i.
Proof. exact cyclic_true_mem. Qed.
Print Assumptions c10_cyclic_is_true.

(** The same for any registry, unless the registry itself answered with this error. *)
Theorem c10_cyclic_is_true_any : forall (E : Type) (b : buffer E) (r : registry E),
  good_buffer b -> good_registry r -> forall id pos e i q e',
  decode_as_type_at_position b r id pos e = (Err (PRegistry (RInternal (CyclicMetadata i))), q, e') ->
  clos_trans N (holds r) i i \/
  exists j e1 e2, resolve r j e1 = (inr (RInternal (CyclicMetadata i)), e2).
Proof. intros E b r Hb Hr. exact (cyclic_true b r Hb Hr). Qed.
Print Assumptions c10_cyclic_is_true_any.

(** C11: no panic, for any well-behaved source and any metadata. *)
Theorem c11_no_panic_type : forall (E : Type) (b : buffer E) (r : registry E),
  good_buffer b -> good_registry r ->
  (forall id pos e, returns (fst (fst (decode_as_type_at_position b r id pos e)))) /\
  (forall id e, returns (fst (decode_all_as_type b r id e))).
Proof.
  intros E b r Hb Hr. split; intros.
  - eapply runs_returns, decode_at_runs; auto.
  - apply decode_all_returns; auto.
Qed.
Print Assumptions c11_no_panic_type.

Theorem c11_no_panic_transaction : forall (E ME : Type) (b : buffer E) (m : metadata E ME),
  good_buffer b -> good_registry (m_types m) -> forall g pos e,
  returns (fst (fst (parse_transaction b m g pos e))) /\
  returns (fst (fst (parse_transaction_unmarked b m g pos e))) /\
  returns (fst (fst (decode_as_call_unmarked b m pos e))) /\
  returns (fst (fst (decode_extensions_unmarked b m g pos e))) /\
  returns (fst (fst (decode_as_unchecked_extrinsic b m pos e))) /\
  returns (fst (fst (@mark E ME b pos e))).
Proof.
  intros E ME b m Hb Hm g pos e. repeat split; eapply runs_returns.
  - apply transaction_runs; auto.
  - apply transaction_unmarked_runs; auto.
  - eapply call_unmarked_runs; auto.
  - apply extensions_unmarked_runs; auto.
  - apply unchecked_runs; auto.
  - apply (mark_runs b m); auto.
Qed.
Print Assumptions c11_no_panic_transaction.

(** Calls and extensions of marked data (marks as [mark] makes them). *)
Theorem c11_no_panic_marked : forall (E ME : Type) (b : buffer E) (m : metadata E ME),
  good_buffer b -> good_registry (m_types m) -> forall mk p0 e0 p1 e1,
  @mark E ME b p0 e0 = (Ok mk, p1, e1) -> forall g pos e,
  returns (fst (fst (decode_as_call b mk m pos e))) /\
  returns (fst (fst (decode_extensions b mk m g pos e))).
Proof.
  intros E ME b m Hb Hm mk p0 e0 p1 e1 Hmk g pos e. pose proof (mark_runs b m Hb p0 e0) as H.
  rewrite Hmk in H. split; eapply runs_returns.
  - apply call_runs; auto. apply H.
  - apply extensions_runs; auto.
Qed.
Print Assumptions c11_no_panic_marked.

(** Storage: the key is in memory (it is read twice; see C53 for external memory). *)
Theorem c11_no_panic_storage : forall (E : Type) (blake2_128 twox_64 : bytes -> bytes)
    (key value : buffer E) (r : registry E) entry,
  good_buffer key -> all_readable key -> good_buffer value -> good_registry r ->
  forall pos e, returns (fst (fst (decode_as_storage_entry blake2_128 twox_64 key value entry r pos e))).
Proof. intros. eapply runs_returns, storage_runs; auto. Qed.
Print Assumptions c11_no_panic_storage.

(** C14: whole blobs. *)
Theorem c14_whole_blob : forall types data id,
  match decode_at types data id 0 with
  | (Ok x, q) =>
      if Nat.eqb q (List.length data) then decode_all types data id = Ok x
      else decode_all types data id = Err (SomeDataNotUsedBlob q)
  | (Err y, _) => decode_all types data id = Err y
  | _ => False
  end.
Proof. exact whole_blob. Qed.
Print Assumptions c14_whole_blob.

Theorem c14_whole_blob_value : forall types data id x,
  is_bytes data -> decode_all types data id = Ok x ->
  exists v, enc types false id v = Some data /\ view types false HNone id v = Some (x_data x, x_info x).
Proof. exact whole_blob_value. Qed.
Print Assumptions c14_whole_blob_value.

Example c14_example :
  (exists x, decode_all sample sample_bytes 10 = Ok x) /\
  decode_all sample (sample_bytes ++ [0%N]) 10 = Err (SomeDataNotUsedBlob 34).
Proof. split; [eexists|]; vm_compute; reflexivity. Qed.
