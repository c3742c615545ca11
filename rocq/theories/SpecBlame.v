(** What an error of the decoder accuses (C61): a type that is needed for the value asked for,
    and data that cannot be of this type. *)
From Coq Require Import Relations.
From Verif Require Import Base Compact Types Spec SpecReach SpecKinds SpecHusk.
Local Open Scope string_scope.
Local Open Scope list_scope.

(** Names of types in errors. *)
Definition uint_text (w : uwidth) : string :=
  match w with U8 => "u8" | U16 => "u16" | U32 => "u32" | U64 => "u64" | U128 => "u128" end.
Definition part_text (k : per_kind) : string :=
  match k with
  | KPerU16 => "PerU16" | KPercent => "Percent" | KPermill => "Permill" | KPerbill => "Perbill"
  | KPerquintill => "Perquintill"
  end.
Definition bits_text (w : uwidth) (o : bit_order) : string :=
  "BitVec<" ++ uint_text w ++ ", " ++ (match o with Lsb0 => "Lsb0" | Msb0 => "Msb0" end) ++ ">".

Section Blame.
Variable types : list ty.
Variable data : bytes.

(** Types needed for a value of type [root]. *)
Inductive needed (root : N) : N -> Prop :=
| Needed_itself : needed root root
| Needed_for i t j : needed root i -> lookup types i = Some t -> In j (needs t) -> needed root j.

(** [wrong t name l]: the data [l] begin with what would be a [name] of type [t], but are none. *)
Inductive wrong (t : ty) : string -> bytes -> Prop :=
| Wrong_bool b l : def_of t = Some (TPrimitive PrBool) -> b <> 0%N -> b <> 1%N -> wrong t "bool" (b :: l)
| Wrong_char n l : def_of t = Some (TPrimitive PrChar) -> (n < 2 ^ 32)%N -> scalar n = false -> wrong t "char" (le_bytes 4 n ++ l)
| Wrong_text s l : def_of t = Some (TPrimitive PrStr) -> fits U32 (N.of_nat (List.length s)) = true ->
    (forall cs, forallb scalar cs = true -> s <> utf8s cs) ->
    wrong t "str" (compact_enc (N.of_nat (List.length s)) ++ s ++ l)
| Wrong_era a b l : classify t = SpEra -> (forall e rest, era_valid e = true -> a :: b :: l <> era_enc e ++ rest) -> wrong t "Era" (a :: b :: l)
| Wrong_part k n l : classify t = SpPer k -> fits (part_width k) n = true -> (whole k < n)%N ->
    wrong t (part_text k) (le_bytes (usize (part_width k)) n ++ l)
| Wrong_bits store order w o n l : def_of t = Some (TBitSequence store order) -> bit_store types store = Some w ->
    bit_order_of types order = Some o -> fits U32 n = true -> (max_bits < n)%N -> wrong t (bits_text w o) (compact_enc n ++ l).

(** Number of bytes of types of fixed size. *)
Definition fixed_size (t : ty) : option nat :=
  match classify t, def_of t with
  | SpRaw k, _ => Some (raw_len k)
  | SpHash, _ => Some 32%nat
  | SpPer k, _ => Some (usize (part_width k))
  | _, Some (TPrimitive PrBool) => Some 1%nat
  | _, Some (TPrimitive PrChar) => Some 4%nat
  | _, Some (TPrimitive (PrU w)) => Some (usize w)
  | _, Some (TPrimitive (PrI w)) => Some (usize w)
  | _, Some (TPrimitive PrU256) => Some 32%nat
  | _, Some (TPrimitive PrI256) => Some 32%nat
  | _, _ => None
  end.

(** [asks t at_p n]: a value of type [t] may need [n] bytes from [at_p] on. *)
Inductive asks (t : ty) (at_p : nat) (n : N) : Prop :=
| Asks_size k : fixed_size t = Some k -> n = N.of_nat k -> asks t at_p n
| Asks_index vs : def_of t = Some (TVariant vs) -> n = 1%N -> asks t at_p n
| Asks_signature vs v f k : classify t = SpMultiSig -> t_def t = TVariant vs -> In v vs -> v_fields v = [f] -> signs types f k ->
    n = N.of_nat (raw_len k) -> asks t at_p n
| Asks_era : classify t = SpEra -> n = 1%N \/ n = 2%N -> asks t at_p n
| Asks_text s : def_of t = Some (TPrimitive PrStr) -> at_p = (s + List.length (compact_enc n))%nat ->
    slice data s (List.length (compact_enc n)) = compact_enc n -> asks t at_p n
| Asks_bits store order w bits : def_of t = Some (TBitSequence store order) -> bit_store types store = Some w ->
    slice data at_p (List.length (compact_enc bits)) = compact_enc bits ->
    n = (N.of_nat (List.length (compact_enc bits)) +
         (bits + 8 * N.of_nat (usize w) - 1) / (8 * N.of_nat (usize w)) * N.of_nat (usize w))%N -> asks t at_p n.

(** [counts t w]: values of type [t] begin with a compact number of width [w], if [t] is a vector,
    a string, a bit sequence, or inside of a compact. *)
Definition counts (t : ty) (w : uwidth) : Prop :=
  match classify t, def_of t with
  | SpPer k, _ => w = part_width k
  | _, Some (TSequence _) => w = U32
  | _, Some (TPrimitive PrStr) => w = U32
  | _, Some (TBitSequence _ _) => w = U32
  | _, Some (TPrimitive (PrU w')) => w = w'
  | _, _ => False
  end.

(** [accuses root pos x]: what the error [x] says, decoding a value of type [root] at [pos]. *)
Inductive accuses (root : N) (pos : nat) : parser_err -> Prop :=
(* there is a type needed that is an enum without a variant of this index *)
| Accuses_index id t vs at_p b : needed root id -> lookup types id = Some t -> def_of t = Some (TVariant vs) ->
    (pos <= at_p)%nat -> nth_error data at_p = Some b -> (forall v, In v vs -> v_index v <> b) ->
    accuses root pos (UnexpectedEnumVariant at_p)
(* there is a type needed that these data are not of *)
| Accuses_value id t at_p name : needed root id -> lookup types id = Some t ->
    (pos <= at_p)%nat -> wrong t name (skipn at_p data) -> accuses root pos (TypeFailure at_p name)
(* there is a type needed that begins with a compact number, and these data do not *)
| Accuses_compact id t w at_p : needed root id -> lookup types id = Some t -> counts t w ->
    (pos <= at_p <= List.length data)%nat -> (forall v rest, fits w v = true -> skipn at_p data <> compact_enc v ++ rest) ->
    accuses root pos (NoCompact at_p)
(* there is a type needed that asks for so many bytes, and there are not so many *)
| Accuses_short id t at_p n : needed root id -> lookup types id = Some t -> asks t at_p n ->
    (pos <= at_p <= List.length data)%nat -> (N.of_nat (List.length data) < N.of_nat at_p + n)%N ->
    accuses root pos (PBuffer (DataTooShort at_p n))
(* a type needed is not in the registry *)
| Accuses_missing id : needed root id -> lookup types id = None -> accuses root pos (PRegistry (RInternal (TypeNotResolved id)))
(* a type needed contains itself *)
| Accuses_cycle id : needed root id -> clos_trans N (contains types) id id -> accuses root pos (PRegistry (RInternal (CyclicMetadata id)))
(* a type needed is a compact of something that has no compact form *)
| Accuses_inside id t inner : needed root id -> lookup types id = Some t -> def_of t = Some (TCompact inner) ->
    ~ compactable types inner -> accuses root pos (PRegistry (RInternal (UnexpectedCompactInsides id)))
(* a type needed is a bit sequence without a known order *)
| Accuses_order id t store order : needed root id -> lookup types id = Some t -> def_of t = Some (TBitSequence store order) ->
    lookup types order <> None -> bit_order_of types order = None -> accuses root pos (PRegistry (RInternal (NotBitOrderType id)))
(* a type needed is a bit sequence without a known store *)
| Accuses_store id t store order : needed root id -> lookup types id = Some t -> def_of t = Some (TBitSequence store order) ->
    lookup types store <> None -> bit_store types store = None -> accuses root pos (PRegistry (RInternal (NotBitStoreType id))).
End Blame.
