(** The first fault in the data (C62): which error is due for data that do not hold a value of a
    type, in terms of encodings only. *)
From Coq Require Import Relations.
From Verif Require Import Base Compact Types Spec SpecKinds SpecBlame.
Local Open Scope string_scope.
Local Open Scope list_scope.

Section Fault.
Variable types : list ty.
Variable data : bytes.

(** The bytes [l] stand in the data at [p]. *)
Definition stands (l : bytes) (p : nat) : Prop := exists before after, data = before ++ l ++ after /\ List.length before = p.

(** There are fewer than [n] bytes from [p] on. *)
Definition lacks (p : nat) (n : N) : Prop := (N.of_nat (List.length data) < N.of_nat p + n)%N.

(** No compact number of width [w] stands at [p]. *)
Definition no_number (w : uwidth) (p : nat) : Prop := forall n, fits w n = true -> ~ stands (compact_enc n) p.

(** A type whose values begin with a compact number: numbers and parts inside of a compact;
    strings, vectors and bit sequences. (A vector inside of a compact is no value of anything;
    its length is looked at nevertheless.) *)
Definition begins (t : ty) (cpt : bool) : option uwidth :=
  match classify t, def_of t, cpt with
  | SpPer k, _, true => Some (part_width k)
  | _, Some (TPrimitive (PrU w)), true => Some w
  | _, Some (TPrimitive PrStr), false | _, Some (TSequence _), _ | _, Some (TBitSequence _ _), false => Some U32
  | _, _, _ => None
  end.

(** Length in bytes of the elements of [n] bits. *)
Definition bits_bytes (w : uwidth) (n : N) : N :=
  ((n + 8 * N.of_nat (usize w) - 1) / (8 * N.of_nat (usize w)) * N.of_nat (usize w))%N.

(** Faults of a value without parts at [p]. *)
Inductive leaf_fault (t : ty) (cpt : bool) (p : nat) : parser_err -> Prop :=
| LF_short k : cpt = false -> fixed_size t = Some k -> lacks p (N.of_nat k) -> leaf_fault t cpt p (PBuffer (DataTooShort p (N.of_nat k)))
| LF_number w : begins t cpt = Some w -> no_number w p -> leaf_fault t cpt p (NoCompact p)
| LF_era_first : cpt = false -> classify t = SpEra -> lacks p 1 -> leaf_fault t cpt p (PBuffer (DataTooShort p 1))
| LF_era_second b : cpt = false -> classify t = SpEra -> nth_error data p = Some b -> b <> 0%N -> lacks p 2 ->
    leaf_fault t cpt p (PBuffer (DataTooShort p 2))
| LF_text n : cpt = false -> def_of t = Some (TPrimitive PrStr) -> fits U32 n = true -> stands (compact_enc n) p ->
    lacks (p + List.length (compact_enc n)) n -> leaf_fault t cpt p (PBuffer (DataTooShort (p + List.length (compact_enc n)) n))
| LF_bits store order w n : cpt = false -> def_of t = Some (TBitSequence store order) -> bit_order_of types order <> None ->
    bit_store types store = Some w -> fits U32 n = true -> stands (compact_enc n) p ->
    lacks p (N.of_nat (List.length (compact_enc n)) + bits_bytes w n) ->
    leaf_fault t cpt p (PBuffer (DataTooShort p (N.of_nat (List.length (compact_enc n)) + bits_bytes w n)))
| LF_many_bits store order w o n : cpt = false -> def_of t = Some (TBitSequence store order) -> bit_order_of types order = Some o ->
    bit_store types store = Some w -> fits U32 n = true -> (max_bits < n)%N -> stands (compact_enc n) p ->
    ~ lacks p (N.of_nat (List.length (compact_enc n)) + bits_bytes w n) -> leaf_fault t cpt p (TypeFailure p (bits_text w o))
| LF_wrong name : cpt = false -> (forall store order, def_of t <> Some (TBitSequence store order)) ->
    wrong types t name (skipn p data) -> leaf_fault t cpt p (TypeFailure p name).

(** Faults of the index of an enum. *)
Inductive index_fault (vs : list variant) (p : nat) : parser_err -> Prop :=
| IF_short : lacks p 1 -> index_fault vs p (PBuffer (DataTooShort p 1))
| IF_unknown b : nth_error data p = Some b -> by_index vs b = None -> index_fault vs p (UnexpectedEnumVariant p).

(** [fault cpt id p x]: reading a value of type [id] at [p] (inside of a compact if [cpt]), the
    first thing wrong is [x]: everything in front of it is in order. *)
Inductive fault (cpt : bool) (id : N) (p : nat) : parser_err -> Prop :=
| Fault_leaf t x : lookup types id = Some t -> leaf_fault t cpt p x -> fault cpt id p x
| Fault_field t fs1 f fs2 vs bs x : lookup types id = Some t -> def_of t = Some (TComposite (fs1 ++ f :: fs2)) ->
    (cpt = true -> fs1 = [] /\ fs2 = []) ->
    enc_list (fun g => enc types cpt (f_ty g)) fs1 vs = Some bs -> stands bs p ->
    fault cpt (f_ty f) (p + List.length bs) x -> fault cpt id p x
| Fault_member t l1 i l2 vs bs x : lookup types id = Some t -> def_of t = Some (TTuple (l1 ++ i :: l2)) ->
    (cpt = true -> l1 = [] /\ l2 = []) ->
    enc_list (enc types cpt) l1 vs = Some bs -> stands bs p -> fault cpt i (p + List.length bs) x -> fault cpt id p x
| Fault_index t vs x : cpt = false -> lookup types id = Some t -> def_of t = Some (TVariant vs) -> vs <> [] ->
    index_fault vs p x -> fault cpt id p x
| Fault_variant t vs b v fs1 f fs2 ws bs x : cpt = false -> lookup types id = Some t -> def_of t = Some (TVariant vs) ->
    by_index vs b = Some v -> variant_sig types t v = None -> pallet_items types t v = None ->
    v_fields v = fs1 ++ f :: fs2 -> enc_list (fun g => enc types false (f_ty g)) fs1 ws = Some bs -> stands (b :: bs) p ->
    fault false (f_ty f) (p + 1 + List.length bs) x -> fault cpt id p x
| Fault_signature t vs b v k : cpt = false -> lookup types id = Some t -> def_of t = Some (TVariant vs) ->
    by_index vs b = Some v -> variant_sig types t v = Some k -> nth_error data p = Some b ->
    lacks (p + 1) (N.of_nat (raw_len k)) -> fault cpt id p (PBuffer (DataTooShort (p + 1) (N.of_nat (raw_len k))))
| Fault_item_index t vs b v inner items x : cpt = false -> lookup types id = Some t -> def_of t = Some (TVariant vs) ->
    by_index vs b = Some v -> pallet_items types t v = Some (inner, items) -> nth_error data p = Some b ->
    index_fault items (p + 1) x -> fault cpt id p x
| Fault_item t vs b v inner items b2 item fs1 f fs2 ws bs x : cpt = false -> lookup types id = Some t ->
    def_of t = Some (TVariant vs) -> by_index vs b = Some v -> pallet_items types t v = Some (inner, items) ->
    by_index items b2 = Some item -> v_fields item = fs1 ++ f :: fs2 ->
    enc_list (fun g => enc types false (f_ty g)) fs1 ws = Some bs -> stands (b :: b2 :: bs) p ->
    fault false (f_ty f) (p + 2 + List.length bs) x -> fault cpt id p x
| Fault_element t el n vs bs x : cpt = false -> lookup types id = Some t -> def_of t = Some (TSequence el) -> fits U32 n = true ->
    (N.of_nat (List.length vs) < n)%N -> enc_all (enc types false el) vs = Some bs -> stands (compact_enc n ++ bs) p ->
    fault false el (p + List.length (compact_enc n ++ bs)) x -> fault cpt id p x
| Fault_array t n el vs bs x : cpt = false -> lookup types id = Some t -> def_of t = Some (TArray n el) ->
    (N.of_nat (List.length vs) < n)%N -> enc_all (enc types false el) vs = Some bs -> stands bs p ->
    fault false el (p + List.length bs) x -> fault cpt id p x
| Fault_compact t inner x : cpt = false -> lookup types id = Some t -> def_of t = Some (TCompact inner) ->
    fault true inner p x -> fault cpt id p x.
End Fault.

(** The types needed for a value of type [id] can all be used. *)
Definition usable (types : list ty) (id : N) : Prop :=
  forall i, needed types id i -> exists t, lookup types i = Some t /\
     ~ clos_trans N (contains types) i i /\
     (forall inner, def_of t = Some (TCompact inner) -> compactable types inner) /\
     (forall store order, def_of t = Some (TBitSequence store order) -> bit_store types store <> None /\ bit_order_of types order <> None).
