(** Size of parsed data and when it is bounded (C44). *)
From Verif Require Import Base Compact Types Spec.
Local Open Scope list_scope.

(** Number of items in parsed data: every value, struct, enum, tuple and sequence counts 1,
    every byte of a byte string or text, every collected integer and every bit counts 1
    besides. *)
Fixpoint size (d : pdata) : nat :=
  let fields (l : list (fdata pdata)) := list_sum (map (fun f => size (x_data (fd_data f))) l) in
  match d with
  | DBitVec _ _ bits => S (List.length bits)
  | DHash _ l => S (List.length l)
  | DFixed _ l => S (List.length l)
  | DText l _ => S (List.length l)
  | DComposite l => S (fields l)
  | DVariant v => S (fields (vd_fields v))
  | DCall c => S (fields (ps_fields c))
  | DEvent c => S (fields (ps_fields c))
  | DTuple l => S (list_sum (map (fun x => size (x_data x)) l))
  | DSequence _ (SeqU _ l) => S (List.length l)
  | DSequence _ (SeqVecU8 l _) => S (list_sum (map (fun b => S (List.length b)) l))
  | DSequenceRaw _ l => S (list_sum (map size l))
  | _ => 1
  end.

(** No vector has elements that may be encoded in no bytes. *)
Definition no_empty_elements (types : list ty) : Prop :=
  forall id t el v, lookup types id = Some t -> def_of t = Some (TSequence el) ->
  enc types false el v <> Some [].

(** Members of a type. *)
Definition width (t : ty) : nat :=
  match t_def t with
  | TComposite fs => List.length fs
  | TVariant vs => list_max (map (fun v => List.length (v_fields v)) vs)
  | TTuple ids => List.length ids
  | TArray len _ => N.to_nat len
  | _ => 1
  end.

Definition widest (types : list ty) : nat := S (list_max (map width types)).

(** A bound for the number of items per byte; it depends on the registry only. *)
Definition growth (types : list ty) : nat :=
  8 + Nat.iter (S (2 * List.length types)) (fun m => 1 + widest types * m) 1.
