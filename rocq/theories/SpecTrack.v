(** External memory errors, and bare signatures that are plain byte arrays (C41). *)
From Verif Require Import Base Compact Types Spec.
Local Open Scope list_scope.

(** The error reports that external memory could not be read. *)
Definition pext (x : parser_err) : Prop :=
  (exists c, x = PBuffer (BExternal c)) \/ (exists c, x = PRegistry (RExternal c)).

Section Straight.
Variable types : list ty.

(** [straight path el]: the first type of the path is an array of [el] inside the
    single-field structs [path], none of them a compact or a type recognised by its path. *)
Inductive straight : list N -> N -> Prop :=
| st_array id t n el : lookup types id = Some t -> def_of t = Some (TArray n el) -> straight [id] el
| st_struct id t i l el : lookup types id = Some t -> transparent t = Some (i, false) ->
    straight (i :: l) el -> straight (id :: i :: l) el.

(** Fields that are recognised as bare signatures inside `MultiSignature` are straight
    arrays. *)
Definition straight_signatures : Prop :=
  forall id t vs v f s, lookup types id = Some t -> t_def t = TVariant vs -> In v vs ->
    v_fields v = [f] -> variant_sig types t v = Some s ->
    exists l el, straight (f_ty f :: l) el.
End Straight.

(** ** External memory with persistent faults *)

(** [b] holds [data] in external memory: every request always gives the stored content
    (or the range error it gives in memory), or always fails to reach the memory. *)
Definition faulty_copy {E} (b : buffer E) (data : bytes) : Prop :=
  total_len b = List.length data /\
  forall p n, (forall e, fst (rd b p n e) = fst (rd (slice_buffer data) p n tt)) \/
              (forall e, exists c, fst (rd b p n e) = inr (BExternal c)).

(** The same for types. *)
Definition faulty_registry {E} (r : registry E) (types : list ty) : Prop :=
  reg_bound r = List.length types /\
  forall id, (forall e, fst (resolve r id e) = fst (resolve (portable types) id tt)) \/
             (forall e, exists c, fst (resolve r id e) = inr (RExternal c)).
