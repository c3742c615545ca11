(** Nesting of parsed data and indents of cards (C68). *)
From Verif Require Import Base Compact Types Cards.
Local Open Scope list_scope.

(** Number of levels: a value without parts is one level, a struct, enum, call, tuple or
    sequence is one more than the deepest of its parts. *)
Fixpoint levels (d : pdata) : nat :=
  let fields (l : list (fdata pdata)) := list_max (map (fun f => levels (x_data (fd_data f))) l) in
  match d with
  | DComposite l => S (fields l)
  | DVariant v => S (fields (vd_fields v))
  | DCall c => S (fields (ps_fields c))
  | DEvent c => S (fields (ps_fields c))
  | DTuple l => S (list_max (map (fun x => levels (x_data x)) l))
  | DSequence _ _ => 2
  | DSequenceRaw _ l => S (list_max (map levels l))
  | _ => 1
  end.

(** Levels that [bytes] bytes can give with a registry of [types] types. *)
Definition most_levels (types bytes : nat) : nat := S (S bytes * (types + 3)).

(** *** How deep types go *)
From Verif Require Import Spec SpecWf.

(** Chains of types, each mentioned in the definition of the one before: [below types id n]
    says that there is one of [n] steps that starts at type [id]. *)
Inductive below (types : list ty) : N -> nat -> Prop :=
| Here id : below types id 0
| Further id t j n : lookup types id = Some t -> mentions t j -> below types j n -> below types id (S n).
