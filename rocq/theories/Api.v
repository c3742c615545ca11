(** In-memory calls of the decoder, as used in the statements of the properties: the data
    is a byte slice, the registry a portable registry, there is no external memory. *)
From Verif Require Import Base Compact Types Indicators Decode.

(** `decode_as_type_at_position` (lib.rs:776-796): outcome and final position. *)
Definition decode_at (types : list ty) (data : bytes) (id : N) (pos : nat)
  : outcome parser_err (ext pdata) * nat :=
  let '(o, q, _) := decode_as_type_at_position (slice_buffer data) (portable types) id pos tt in
  (o, q).

(** The same under a hint (as used for extensions and fields: propagated.rs:212-223). *)
Definition decode_hinted (h : hint) (types : list ty) (data : bytes) (id : N) (pos : nat)
  : outcome parser_err (ext pdata) * nat :=
  let '(o, q, _) := decode_with_type (slice_buffer data) (portable types) (Symbol id)
                      (Propagated (Checker None h []) []) pos tt in
  (o, q).

(** `decode_all_as_type` (lib.rs:801-825). *)
Definition decode_all (types : list ty) (data : bytes) (id : N) : outcome parser_err (ext pdata) :=
  fst (decode_all_as_type (slice_buffer data) (portable types) id tt).
