(** Well-behaved sources and what a registry may say: used in the statements about
    arbitrary (also stateful, external-memory) sources. *)
From Verif Require Import Base Compact Types Spec.

(** A buffer answers a request with exactly the requested number of bytes, all of them
    inside its length, or with an error. *)
Definition good_buffer {E} (b : buffer E) : Prop :=
  forall p n e l e', rd b p n e = (inl l, e') ->
  N.of_nat (List.length l) = n /\ p + List.length l <= total_len b.

(** A registry resolves only ids below its bound. *)
Definition good_registry {E} (r : registry E) : Prop :=
  forall id e t e', resolve r id e = (inl t, e') -> (id < N.of_nat (reg_bound r))%N.

(** [t] is a possible answer of the registry for [id]. *)
Definition known {E} (r : registry E) (id : N) (t : ty) : Prop :=
  exists e e', resolve r id e = (inl t, e').

(** A type that is decoded by its definition contains the type [j] without an enum or a
    vector in between. *)
Definition child (t : ty) (j : N) : Prop :=
  match def_of t with
  | Some (TComposite fs) => exists f, In f fs /\ f_ty f = j
  | Some (TTuple ids) => In j ids
  | Some (TArray _ elem) => elem = j
  | Some (TCompact inner) => inner = j
  | _ => False
  end.

Definition holds {E} (r : registry E) (i j : N) : Prop := exists t, known r i t /\ child t j.

(** A call returned a value or an error: it did not panic and the recursion bound of the
    model was not reached. *)
Definition returns {X A} (o : outcome X A) : Prop :=
  (exists a, o = Ok a) \/ (exists x, o = Err x).

(** Every range inside the length can be read (in-memory data). *)
Definition all_readable {E} (b : buffer E) : Prop :=
  forall p n e, (N.of_nat p + n <= N.of_nat (total_len b))%N ->
  exists l e', rd b p n e = (inl l, e').
