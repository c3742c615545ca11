(** C53: storage entries and unchecked extrinsics from external memory.  Only statements;
    proofs in ProofCover.v and ProofHoles.v, specification in SpecHoles.v. *)
From Coq Require Import Lia ZifyBool ZifyNat ZifyN.
From Verif Require Import Base Compact Types Indicators Decode Sign Unchecked SpecUnchecked Storage Spec SpecSource SpecTrack SpecHoles
  Api ApiSign ApiStorage ProofBase ProofSafe ProofSafe2 ProofIso ProofExternal ProofHoles SpecTransient SampleChain PropTrack PropTransient PropStorage PropUnchecked.
Local Open Scope string_scope.
Local Open Scope list_scope.

(** A successful decoding consumed only bytes that can be read. *)
Theorem c53_consumed_is_readable : forall E (b : buffer E) data dead r id pos e x q e', holes b data dead ->
  decode_as_type_at_position b r id pos e = (Ok x, q, e') ->
  (pos <= q)%nat /\ forall a, (pos <= a < q)%nat -> dead a = false /\ (a < List.length data)%nat.
Proof. intros E b data dead r id pos e x q e' Hb. apply (holes_consumed b data dead Hb). Qed.
Print Assumptions c53_consumed_is_readable.

(** Storage entries whose key has unreadable addresses are parsed without panic (whatever
    the memory of the value and of the types does). *)
Theorem c53_storage_returns : forall E (blake2_128 twox_64 : bytes -> bytes) (k v : buffer E) key dead r entry,
  holes k key dead -> good_buffer v -> good_registry r ->
  forall pos e, returns (fst (fst (decode_as_storage_entry blake2_128 twox_64 k v entry r pos e))).
Proof. intros. eapply runs_returns, holes_storage_runs; eauto. Qed.
Print Assumptions c53_storage_returns.

(** The result is the one in memory, or an external memory error. *)
Theorem c53_storage : forall E (blake2_128 twox_64 : bytes -> bytes) (k v : buffer E) key value dead r types entry e o q e',
  holes k key dead -> faulty_copy v value -> faulty_registry r types -> straight_signatures types ->
  decode_as_storage_entry blake2_128 twox_64 k v entry r 0 e = (o, q, e') ->
  (exists x y, o = Err x /\ (x = ParsingKey y \/ x = ParsingValue y) /\ pext y) \/
  o = storage_entry blake2_128 twox_64 types key value entry.
Proof.
  intros E b2 t6 k v key value dead r types entry e o q e' Hk Hv Hr Hs H.
  pose proof (holes_storage_runs k key dead Hk b2 t6 v r entry 0 e (faulty_good _ _ Hv) (faulty_good_reg _ _ Hr)) as R.
  rewrite H in R. destruct (external_storage types r Hr Hs b2 t6 k v key value entry e o q e' (holes_copy k key dead Hk) Hv H)
    as [->|[(x & -> & y & Hx)|Hx]]; [destruct R| |right; exact Hx].
  left. exists x, y. auto.
Qed.
Print Assumptions c53_storage.

(** If the memory refuses some requests rather than some addresses, parsing may also panic,
    but it never gives a different result. *)
Theorem c53_storage_refusals : forall E (blake2_128 twox_64 : bytes -> bytes) (k v : buffer E) key value r types entry e o q e',
  faulty_copy k key -> faulty_copy v value -> faulty_registry r types -> straight_signatures types ->
  decode_as_storage_entry blake2_128 twox_64 k v entry r 0 e = (o, q, e') ->
  match o with
  | Ok s => storage_entry blake2_128 twox_64 types key value entry = Ok s
  | Err x => (exists y, (x = ParsingKey y \/ x = ParsingValue y) /\ pext y) \/
             storage_entry blake2_128 twox_64 types key value entry = Err x
  | Panic => True
  | OutOfFuel => False
  end.
Proof.
  intros E b2 t6 k v key value r types entry e o q e' Hk Hv Hr Hs H.
  destruct (external_storage types r Hr Hs b2 t6 k v key value entry e o q e' Hk Hv H)
    as [->|[(x & -> & y & Hx)|Hx]]; [exact I|left; exists y; exact Hx|].
  pose proof (nf_storage k r (faulty_good _ _ Hk) (faulty_good_reg _ _ Hr) b2 t6 v entry 0 e (faulty_good _ _ Hv)) as N.
  rewrite H in N. unfold nf in N. cbn [fst] in N. destruct o; auto.
Qed.
Print Assumptions c53_storage_refusals.

(** Unchecked extrinsics. A fault while the length is read is reported as a missing compact. *)
Theorem c53_unchecked : forall E ME (c : chain ME) (b : buffer E) r data e o q e',
  faulty_copy b data -> faulty_registry r (ch_types c) -> straight_signatures (ch_types c) ->
  decode_as_unchecked_extrinsic b (Metadata E ME r (ch_spec c) (ch_call c) (ch_extensions c) (ch_params c) (ch_version c)) 0 e = (o, q, e') ->
  (exists x, o = Err x /\ (x = FormatNoCompact \/ exists y, x = UParsing y /\ pext y)) \/ o = unchecked_extrinsic c data.
Proof. intros E ME c b r data e o q e' Hb Hr Hs. exact (external_unchecked c r Hr Hs b data e o q e' Hb). Qed.
Print Assumptions c53_unchecked.

(** ** Concrete memories *)

(** One dead address. *)
Definition hole_memory (data : bytes) (hole : nat) : buffer nat :=
  Buffer nat (List.length data) (fun p n e =>
    (if (Nat.leb p hole && (hole <? p + N.to_nat n)%nat && (p + N.to_nat n <=? List.length data)%nat)%bool
     then inr (BExternal 7) else fst (slice_rd data p n tt), S e)).

Lemma hole_memory_holes data hole : holes (hole_memory data hole) data (Nat.eqb hole).
Proof.
  split; [reflexivity|]. intros p n e. cbn [rd hole_memory slice_buffer fst]. split.
  - intros a Ha Hn Hd. apply Nat.eqb_eq in Hd. subst a. exists 7%N.
    destruct (_ && _)%bool eqn:Hx; [reflexivity|lia].
  - intros H. destruct (_ && _)%bool eqn:Hx; [|reflexivity]. exfalso. destruct H as [H|H]; [|lia].
    specialize (H hole ltac:(lia)). rewrite Nat.eqb_refl in H. discriminate.
Qed.

(** A memory refusing one request. *)
Definition refusing (data : bytes) (p0 : nat) (n0 : N) : buffer nat :=
  Buffer nat (List.length data) (fun p n e =>
    (if (Nat.eqb p p0 && (n =? n0)%N)%bool then inr (BExternal 7) else fst (slice_rd data p n tt), S e)).

Lemma refusing_copy data p0 n0 : faulty_copy (refusing data p0 n0) data.
Proof.
  split; [reflexivity|]. intros p n. cbn [rd refusing]. destruct (_ && _)%bool; [right|left]; intros e; [exists 7%N|]; reflexivity.
Qed.

Lemma hole_copy_types types hole : faulty_registry (hole_registry types hole) types.
Proof. apply hole_types. Qed.

Definition from_memory (k v : buffer nat) := fst (fst (decode_as_storage_entry (fake 16) (fake 8) k v tuple_entry (portable storage_types) 0 0%nat)).

(** The addresses 32..43 hold a hash and the value hashed. *)
Example c53_example :
  from_memory (hole_memory tuple_key 3) (hole_memory [9; 0; 0; 0]%N 20) = stored tuple_key [9; 0; 0; 0]%N tuple_entry /\
  from_memory (hole_memory tuple_key 33) (hole_memory [9; 0; 0; 0]%N 20) = Err (ParsingKey (PBuffer (BExternal 7))) /\
  from_memory (hole_memory tuple_key 43) (hole_memory [9; 0; 0; 0]%N 20) = Err (ParsingKey (PBuffer (BExternal 7))) /\
  from_memory (hole_memory tuple_key 3) (hole_memory [9; 0; 0; 0]%N 2) = Err (ParsingValue (PBuffer (BExternal 7))).
Proof. vm_compute. repeat split. Qed.

(** The key is read a second time to be hashed, and an error then is not expected: if that
    access fails, parsing panics. This takes a memory in which an access fails once, *)
Theorem c53_transient_panic : exists key value k, (* access number [k] fails *)
  flaky_copy (fails_once key k) key /\ (exists s, stored key value tuple_entry = Ok s) /\
  from_memory (fails_once key k) (slice_buffer value) = Panic.
Proof.
  exists tuple_key, [9; 0; 0; 0]%N, 2%nat. split; [apply fails_once_flaky|]. split; [|vm_compute; reflexivity].
  eexists. apply c27_example.
Qed.
Print Assumptions c53_transient_panic.

(** or one that always refuses to read the parts of the key in one piece. *)
Theorem c53_refusal_panic : exists types entry key value p n,
  faulty_copy (refusing key p n) key /\
  (exists s, storage_entry (fake 16) (fake 8) types key value entry = Ok s) /\
  fst (fst (decode_as_storage_entry (fake 16) (fake 8) (refusing key p n) (slice_buffer value) entry (portable types) 0 0%nat)) = Panic.
Proof.
  exists storage_types, (EntryMeta (EMap [Twox64Concat] 2 0) []), (the_prefix ++ fake 8 [1; 0; 0; 0; 2; 3; 0; 0; 0]%N ++ [1; 0; 0; 0; 2; 3; 0; 0; 0]%N),
    [9; 0; 0; 0]%N, 40%nat, 9%N.
  split; [apply refusing_copy|]. split; [|vm_compute; reflexivity]. eexists. vm_compute. reflexivity.
Qed.
Print Assumptions c53_refusal_panic.

Definition meta_hole (r : registry nat) : metadata nat string :=
  Metadata nat string r (ch_spec sample_chain) (ch_call sample_chain) (ch_extensions sample_chain) (ch_params sample_chain) (ch_version sample_chain).
Definition ux_from (b : buffer nat) (r : registry nat) := fst (fst (decode_as_unchecked_extrinsic b (meta_hole r) 0 0%nat)).

Example c53_unchecked_example :
  ux_from (hole_memory (frame signed_content) 1000) (portable chain_types) = Ok signed_shown /\
  ux_from (hole_memory (frame signed_content) 0) (portable chain_types) = Err FormatNoCompact /\
  ux_from (hole_memory (frame signed_content) 20) (portable chain_types) = Err (UParsing (PBuffer (BExternal 7))) /\
  ux_from (hole_memory (frame signed_content) 1000) (hole_registry chain_types 3) = Err (UParsing (PRegistry (RExternal 8))).
Proof. vm_compute. repeat split. Qed.
