(** In-memory call of the storage parser, as used in the statements. *)
From Verif Require Import Base Compact Types Indicators Decode Storage Api.

(** `decode_as_storage_entry` (storage_data.rs:138-186) on byte slices, for given hash
    functions. *)
Definition storage_entry (blake2_128 twox_64 : bytes -> bytes) (types : list ty) (key value : bytes)
    (entry : entry_meta) : outcome storage_err storage :=
  fst (fst (decode_as_storage_entry blake2_128 twox_64 (slice_buffer key) (slice_buffer value) entry
    (portable types) 0 tt)).

(** `process_key_mapped` (storage_data.rs:293-433) on a byte slice, from position [start]. *)
Definition process_key (blake2_128 twox_64 : bytes -> bytes) (types : list ty) (hashers : list hasher) (key_ty : N)
    (key : bytes) (start : nat) : outcome storage_err key_data :=
  fst (fst (process_key_mapped blake2_128 twox_64 hashers key_ty (slice_buffer key) start (portable types) 0 tt)).
