(** In-memory calls of the transaction functions, as used in the statements: the data is a
    byte slice, the metadata is held in memory, there is no external memory. *)
From Verif Require Import Base Compact Types Indicators Decode Sign Api.

(** In-memory metadata: a registry and the answers of the `AsMetadata` and
    `AsCompleteMetadata` methods (traits.rs:47-60). *)
Record chain (ME : Type) := Chain {
  ch_types : list ty;
  ch_spec : spec_name_version + ME;
  ch_call : N + ME;
  ch_extensions : list ext_meta + ME;
  ch_params : extrinsic_params + ME;
  ch_version : N + ME
}.
Arguments ch_types {ME} c.
Arguments ch_spec {ME} c.
Arguments ch_call {ME} c.
Arguments ch_extensions {ME} c.
Arguments ch_params {ME} c.
Arguments ch_version {ME} c.

Section Calls.
Context {ME : Type}.

(** traits.rs:47-60 with the methods' results of [c]. *)
Definition chain_metadata (c : chain ME) : metadata unit ME :=
  Metadata unit ME (portable (ch_types c)) (ch_spec c) (ch_call c) (ch_extensions c) (ch_params c)
    (ch_version c).

(** The functions called with a slice and `&mut ()`, as in lib.rs:675-702. *)
Definition result {X A} (m : M unit X A) : outcome X A := fst (fst (m 0 tt)).

(** `MarkedData::mark` (lib.rs:580-595). *)
Definition mark_data (data : bytes) : outcome (signable_err ME) marked :=
  result (mark (slice_buffer data)).

(** `decode_as_call` (decoding_sci.rs:166-188). *)
Definition call_of (c : chain ME) (data : bytes) (mk : marked) : outcome (signable_err ME) (psdata pdata) :=
  result (decode_as_call (slice_buffer data) mk (chain_metadata c)).

(** `decode_extensions` (decoding_sci_ext.rs:37-58). *)
Definition extensions_of (c : chain ME) (g : option bytes) (data : bytes) (mk : marked)
  : outcome (signable_err ME) (list (ext pdata)) :=
  result (decode_extensions (slice_buffer data) mk (chain_metadata c) g).

(** `parse_transaction` (lib.rs:675-702). *)
Definition transaction (c : chain ME) (g : option bytes) (data : bytes)
  : outcome (signable_err ME) (transaction_parsed ME) :=
  result (parse_transaction (slice_buffer data) (chain_metadata c) g).

(** `parse_transaction_unmarked` (lib.rs:738-765). *)
Definition transaction_unmarked (c : chain ME) (g : option bytes) (data : bytes)
  : outcome (signable_err ME) (psdata pdata * list (ext pdata)) :=
  result (parse_transaction_unmarked (slice_buffer data) (chain_metadata c) g).

End Calls.
