(** Well-formed registries (hypothesis of the completeness property C03). *)
From Coq Require Import Relations.
From Verif Require Import Base Compact Types Spec.

Section Wf.
Variable types : list ty.

(** Types mentioned in the definition of a type. *)
Definition mentions (t : ty) (j : N) : Prop :=
  match t_def t with
  | TComposite fs => exists f, In f fs /\ f_ty f = j
  | TVariant vs => exists v f, In v vs /\ In f (v_fields v) /\ f_ty f = j
  | TSequence el => el = j
  | TArray _ el => el = j
  | TTuple ids => In j ids
  | TPrimitive _ => False
  | TCompact inner => inner = j
  | TBitSequence s o => s = j \/ o = j
  end.

(** Looking through a single-field struct or a compact. *)
Definition unwraps (a b : N) : Prop :=
  exists t c, lookup types a = Some t /\ transparent t = Some (b, c).

Definition compact_around (a b : N) : Prop :=
  exists t, lookup types a = Some t /\ transparent t = Some (b, true).

(** - no type contains itself without an enum or a vector in between;
    - every type mentioned in the registry is there;
    - no compact wraps, through single-field structs, another compact. *)
Record well_formed : Prop := {
  wf_acyclic : acyclic types;
  wf_closed : forall id t j, lookup types id = Some t -> mentions t j ->
              exists t', lookup types j = Some t';
  wf_compact : forall a b c d, compact_around a b -> clos_refl_trans N unwraps b c ->
               ~ compact_around c d
}.

End Wf.
