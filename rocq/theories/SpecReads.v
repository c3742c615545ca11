(** The number of reads (C65). *)
From Verif Require Import Base Compact Types Spec.
Local Open Scope string_scope.

(** Counting: [count e] is the number of reads that the memory has seen in state [e]. A read adds
    at most one, looking up a type nothing. *)
Definition counts_reads {E} (count : E -> nat) (b : buffer E) : Prop :=
  forall p n e, count (snd (rd b p n e)) <= S (count e).
Definition lookup_is_free {E} (count : E -> nat) (r : registry E) : Prop :=
  forall id e, count (snd (resolve r id e)) <= count e.

(** An enum without variants is not named as calls, events and signatures are. *)
Definition item_names : list string := ["Call"; "RuntimeCall"; "Event"; "RuntimeEvent"; "MultiSignature"].
Definition inhabited_items (t : ty) : Prop :=
  t_def t = TVariant [] -> ~ In (last (t_path t) "") item_names.
Definition registry_inhabited {E} (r : registry E) : Prop :=
  forall id e t e', resolve r id e = (inl t, e') -> inhabited_items t.

(** The bytes [data] with a count of the reads. *)
Definition counted_rd (data : bytes) (p : nat) (n : N) (k : nat) : (bytes + buf_err) * nat :=
  (fst (slice_rd data p n tt), S k).
Definition counted (data : bytes) : buffer nat := Buffer nat (List.length data) (counted_rd data).
