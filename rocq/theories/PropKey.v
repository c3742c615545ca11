(** C58: storage keys without their prefix, and data that starts elsewhere.  Only statements;
    proofs in ProofKey.v. *)
From Coq Require Import Lia.
From Verif Require Import Base Compact Types Indicators Decode Sign Storage Spec SpecSource SpecSign SpecStorage SpecKey
  Api ApiStorage ProofBase ProofStorage ProofKey PropStorage.
Local Open Scope string_scope.
Local Open Scope list_scope.

(** `process_key_mapped` accepts only what is described in SpecStorage.v, from the given
    position to the end of the key, *)
Theorem c58_sound : forall (blake2_128 twox_64 : bytes -> bytes) types hashers kt key start k,
  is_bytes key -> (start <= List.length key)%nat ->
  process_key blake2_128 twox_64 types hashers kt key start = Ok k ->
  map_key blake2_128 twox_64 types hashers kt (skipn start key) k.
Proof. intros b t6 types hs kt key start k. apply process_sound. Qed.
Print Assumptions c58_sound.

(** and all of that. *)
Theorem c58_complete : forall (blake2_128 twox_64 : bytes -> bytes) types hashers kt skipped key k,
  acyclic types -> is_bytes (skipped ++ key) ->
  map_key blake2_128 twox_64 types hashers kt key k ->
  process_key blake2_128 twox_64 types hashers kt (skipped ++ key) (List.length skipped) = Ok k.
Proof. intros b t6 types hs kt pre key k. apply process_complete. Qed.
Print Assumptions c58_complete.

(** The documented answer in every case (it is unique). *)
Theorem c58_documented : forall (blake2_128 twox_64 : bytes -> bytes) types hashers kt key start,
  is_bytes key -> (start <= List.length key)%nat ->
  exists r, key_answer blake2_128 twox_64 types key hashers kt start r /\
    process_key blake2_128 twox_64 types hashers kt key start = match r with inl k => Ok k | inr y => Err y end.
Proof. intros b t6 types hs kt key start. apply key_documented. Qed.
Print Assumptions c58_documented.

Theorem c58_unique : forall (blake2_128 twox_64 : bytes -> bytes) types hashers kt key start r1 r2,
  key_answer blake2_128 twox_64 types key hashers kt start r1 ->
  key_answer blake2_128 twox_64 types key hashers kt start r2 -> r1 = r2.
Proof. intros b t6 types hs kt key start r1 r2. apply key_unique. Qed.
Print Assumptions c58_unique.

(** A position beyond the end of the key is an error. *)
Theorem c58_beyond : forall (blake2_128 twox_64 : bytes -> bytes) types hashers kt key start,
  is_bytes key -> (List.length key < start)%nat ->
  exists y, process_key blake2_128 twox_64 types hashers kt key start = Err y.
Proof. intros b t6 types hs kt key start Hb. apply key_beyond, Hb. Qed.
Print Assumptions c58_beyond.

(** A trimmed key gives the same answer as the whole one, up to the positions in errors. *)
Theorem c58_trimmed : forall (blake2_128 twox_64 : bytes -> bytes) types hashers kt prefix key start,
  process_key blake2_128 twox_64 types hashers kt (prefix ++ key) (List.length prefix + start) =
  move_storage (List.length prefix) (process_key blake2_128 twox_64 types hashers kt key start).
Proof. intros b t6 types hs kt prefix key start. apply key_moved. Qed.
Print Assumptions c58_trimmed.

(** `decode_as_storage_entry` reads the key of a map in this way, after 32 bytes. *)
Theorem c58_entry : forall (blake2_128 twox_64 : bytes -> bytes) types hashers kt vt docs key value,
  is_bytes key -> (32 <= List.length key)%nat ->
  storage_entry blake2_128 twox_64 types key value (EntryMeta (EMap hashers kt vt) docs) =
  match process_key blake2_128 twox_64 types hashers kt key 32 with
  | Ok k => match decode_all types value vt with
            | Ok x => Ok (Storage k x (docs_text docs))
            | Err y => Err (ParsingValue y)
            | Panic => Panic
            | OutOfFuel => OutOfFuel
            end
  | Err y => Err y
  | Panic => Panic
  | OutOfFuel => OutOfFuel
  end.
Proof.
  intros b t6 types hs kt vt docs key value Hb Hl.
  destruct (key_documented types b t6 key hs kt 32 Hb Hl) as (r & Hr & ->).
  apply (entry_unique b t6 types key value (EntryMeta (EMap hs kt vt) docs)); [apply storage_answer, Hb|].
  destruct r as [k|y]; [|eapply EA_key_bad; eauto; reflexivity].
  destruct (value_returns types value vt) as [(x & Hx)|(x & Hx)]; rewrite Hx.
  - eapply EA_map; eauto. reflexivity.
  - eapply EA_value_bad; eauto. reflexivity.
Qed.
Print Assumptions c58_entry.

(** The same for a single value (C06 also for failures): bytes in front of the data change
    nothing but the positions. *)
Theorem c58_value_moved : forall types prefix data id pos,
  fst (decode_at types (prefix ++ data) id (List.length prefix + pos)) =
    move_parsed (List.length prefix) (fst (decode_at types data id pos)) /\
  forall x q, decode_at types data id pos = (Ok x, q) ->
    decode_at types (prefix ++ data) id (List.length prefix + pos) = (Ok x, (List.length prefix + q)%nat).
Proof. intros types prefix data id pos. apply decode_moved. Qed.
Print Assumptions c58_value_moved.

(** Concrete cases. *)
Definition from_key := process_key (fake 16) (fake 8) storage_types [Twox64Concat; Blake2_256; Identity] 2.

Example c58_example :
  from_key tuple_key 32 = Ok (KTuple [KParsed (u32v 5); KHash HBlake2_256 (fake 32 [200]%N) 1; KParsed (u32v 513)] (Info "" [])) /\
  from_key (skipn 32 tuple_key) 0 = from_key tuple_key 32 /\
  from_key (skipn 32 tuple_key ++ [0]%N) 0 = Err KeyPartsUnused /\
  from_key (firstn 46 (skipn 32 tuple_key)) 0 = Err (ParsingKey (PBuffer (DataTooShort 44 4))) /\
  from_key (firstn 78 tuple_key) 32 = Err (ParsingKey (PBuffer (DataTooShort 76 4))) /\
  from_key tuple_key 90 = Err (ParsingKey (PBuffer (OutOfRange 90 80))).
Proof. vm_compute. repeat split; reflexivity. Qed.

Example c58_sound_example : map_key (fake 16) (fake 8) storage_types [Twox64Concat; Blake2_256; Identity] 2 (skipn 32 tuple_key)
  (KTuple [KParsed (u32v 5); KHash HBlake2_256 (fake 32 [200]%N) 1; KParsed (u32v 513)] (Info "" [])).
Proof.
  apply c58_sound; [|vm_compute; repeat constructor|apply c58_example].
  vm_compute. repeat constructor.
Qed.
