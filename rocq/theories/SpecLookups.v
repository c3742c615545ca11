(** The number of type lookups (C71). *)
From Verif Require Import Base Compact Types Sign Storage Spec SpecSize.
Local Open Scope list_scope.

(** Counting: [count e] is the number of lookups (calls of `resolve_ty`) that the memory has seen
    in state [e]. A lookup adds at most one, reading data nothing. *)
Definition counts_lookups {E} (count : E -> nat) (r : registry E) : Prop :=
  forall id e, count (snd (resolve r id e)) <= S (count e).
Definition reading_is_free {E} (count : E -> nat) (b : buffer E) : Prop :=
  forall p n e, count (snd (rd b p n e)) <= count e.

(** The registry answers from the list [types], or with an error. *)
Definition answers_from {E} (types : list ty) (r : registry E) : Prop :=
  forall id e t e', resolve r id e = (inl t, e') -> lookup types id = Some t.

(** Lookups to find out what one type is. *)
Definition own (types : list ty) : nat := 2 * List.length types + 8.
(** A bound for the lookups in a value without a byte, nested up to [k] types deep. *)
Definition nested (types : list ty) (k : nat) : nat :=
  Nat.iter k (fun m => own types + widest types * S m) (own types).
(** A bound for the lookups for each byte; it depends on the registry only. *)
Definition effort (types : list ty) : nat :=
  own types + (widest types + 1) * nested types (S (List.length types)).

(** The types [types] in memory, with a count of the lookups. *)
Definition counted_types (types : list ty) : registry nat :=
  Registry nat (List.length types)
    (fun id k => (fst (portable_resolve types id tt), S k)).

(** Types that are decoded in turn: signed extensions and parts of a storage key. *)
Definition extensions_number {E ME} (m : metadata E ME) : nat :=
  match m_signed_extensions m with inl l => List.length l | inr _ => 0 end.
Definition key_parts_number (e : entry_meta) : nat :=
  match en_ty e with EPlain _ => 0 | EMap hashers _ _ => List.length hashers end.
