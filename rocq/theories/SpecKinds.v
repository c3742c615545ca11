(** Specification of particular kinds of types: what a compact may wrap (C15), parts of a
    value, choice of enum variants (C16), packing of bits (C18), collected sequences
    (C20). *)
From Verif Require Import Base Compact Types Spec.
Local Open Scope list_scope.

Section Kinds.
Variable types : list ty.

(** Unsigned integers up to u128, per-things, empty structs and tuples, and single-member
    structs and tuples around one of these. *)
Inductive compactable : N -> Prop :=
| cp_uint id t w : lookup types id = Some t -> def_of t = Some (TPrimitive (PrU w)) -> compactable id
| cp_per id t k : lookup types id = Some t -> classify t = SpPer k -> compactable id
| cp_unit_struct id t : lookup types id = Some t -> def_of t = Some (TComposite []) -> compactable id
| cp_struct id t f : lookup types id = Some t -> def_of t = Some (TComposite [f]) ->
    compactable (f_ty f) -> compactable id
| cp_unit id t : lookup types id = Some t -> def_of t = Some (TTuple []) -> compactable id
| cp_tuple id t i : lookup types id = Some t -> def_of t = Some (TTuple [i]) ->
    compactable i -> compactable id.

(** [part id v j w]: the value [v] of type [id] has a part [w] of type [j], at any depth. *)
Inductive part : N -> value -> N -> value -> Prop :=
| part_self id v : part id v id v
| part_struct id t fs vs i f u j w :
    lookup types id = Some t -> def_of t = Some (TComposite fs) ->
    nth_error fs i = Some f -> nth_error vs i = Some u ->
    part (f_ty f) u j w -> part id (VStruct vs) j w
| part_tuple id t ids vs i k u j w :
    lookup types id = Some t -> def_of t = Some (TTuple ids) ->
    nth_error ids i = Some k -> nth_error vs i = Some u ->
    part k u j w -> part id (VTuple vs) j w
| part_enum id t variants n var vs i f u j w :
    lookup types id = Some t -> def_of t = Some (TVariant variants) -> by_index variants n = Some var ->
    nth_error (v_fields var) i = Some f -> nth_error vs i = Some u ->
    part (f_ty f) u j w -> part id (VEnum n vs) j w
| part_item id t variants n m var inner items item vs i f u j w :
    lookup types id = Some t -> def_of t = Some (TVariant variants) -> by_index variants n = Some var ->
    pallet_items types t var = Some (inner, items) -> by_index items m = Some item ->
    nth_error (v_fields item) i = Some f -> nth_error vs i = Some u ->
    part (f_ty f) u j w -> part id (VItem n m vs) j w
| part_seq id t el vs u j w :
    lookup types id = Some t -> def_of t = Some (TSequence el) -> In u vs ->
    part el u j w -> part id (VSeq vs) j w
| part_arr id t n el vs u j w :
    lookup types id = Some t -> def_of t = Some (TArray n el) -> In u vs ->
    part el u j w -> part id (VArr vs) j w
| part_compact id t inner v j w :
    lookup types id = Some t -> def_of t = Some (TCompact inner) ->
    part inner v j w -> part id (VCompact v) j w.
End Kinds.

(** [v] is the first of the variants declared with index [i]. *)
Definition first_with (variants : list variant) (i : N) (v : variant) : Prop :=
  exists l1 l2, variants = l1 ++ v :: l2 /\ v_index v = i /\ forall u, In u l1 -> v_index u <> i.

Definition none_with (variants : list variant) (i : N) : Prop :=
  forall u, In u variants -> v_index u <> i.

(** ** Packing bits into store elements *)

(** Number with these binary digits, least significant first. *)
Fixpoint number (l : list bool) : N :=
  match l with
  | [] => 0%N
  | b :: r => ((if b then 1 else 0) + 2 * number r)%N
  end.

(** Element number [i] holds bits number i*k .. i*k + k-1 of the string (k bits per
    element; missing bits are 0), from the least significant one up for Lsb0 and from the
    most significant one down for Msb0. *)
Definition pack (w : uwidth) (o : bit_order) (bits : list bool) : list N :=
  let k := (8 * usize w)%nat in
  map (fun i => number (map (fun j => nth (i * k + match o with Lsb0 => j | Msb0 => k - 1 - j end) bits false)
                            (seq 0 k)))
      (seq 0 ((List.length bits + k - 1) / k)).

(** SCALE encoding of a bit string. *)
Definition bits_enc (w : uwidth) (o : bit_order) (bits : list bool) : bytes :=
  compact_enc (N.of_nat (List.length bits)) ++ flat_map (le_bytes (usize w)) (pack w o bits).

(** ** Collected sequences *)

(** [collected s ds]: the collected sequence [s] says the same as the elements [ds]: same
    number, same order, same values, and no labels. *)
Definition collected (s : sequence) (ds : list pdata) : Prop :=
  match s with
  | SeqU w l => ds = map (fun n => DUInt w n SuNone) l
  | SeqVecU8 l inf =>
      Forall2 (fun a d => d = DSequence inf (SeqU U8 a) \/ (a = [] /\ exists i, d = DSequenceRaw i [])) l ds
  end.
