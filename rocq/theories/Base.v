(** Base definitions of the model: bytes, little-endian numbers, outcomes, the
    decoder monad, data sources.  No proofs here. *)
From Coq Require Export List NArith ZArith String Ascii Bool Arith.
Export ListNotations.
Open Scope list_scope.

(** ** Bytes *)

(** A byte string; every element is meant to be < 256 (see [is_bytes]). *)
(** Bytes as in `&[u8]`, e.g. traits.rs:157-162. *)
Definition bytes := list N.

(** Bytes as in `&[u8]`, e.g. traits.rs:157-162. *)
Definition is_byte (b : N) : Prop := (b < 256)%N.
Definition is_bytes (l : bytes) : Prop := Forall is_byte l.

(** Little-endian value of a byte string (`from_le_bytes`, `BigUint::from_bytes_le`). *)
(** Used by `decode_all` in special_types.rs:70-71 and 113-122. *)
Fixpoint le_val (l : bytes) : N :=
  match l with
  | [] => 0%N
  | b :: r => (b + 256 * le_val r)%N
  end.

(** Two's complement little-endian value (`iN::from_le_bytes`,
    `BigInt::from_signed_bytes_le`): the top bit of the last byte is the sign. *)
(** Used by `decode_all` in special_types.rs:70-71 and 113-122. *)
Definition le_sval (l : bytes) : Z :=
  let n := Z.of_N (le_val l) in
  let m := Z.pow 256 (Z.of_nat (List.length l)) in
  if (2 * n <? m)%Z then n else (n - m)%Z.

(** ** Outcomes *)

(** Result of a Rust function: value, error, panic; [OutOfFuel] is an artefact of
    the model (recursion bound of the model reached), excluded by theorem. *)
(** The `Result` of every function, e.g. compacts.rs:26-30. *)
Inductive outcome (X A : Type) : Type :=
| Ok (a : A)
| Err (x : X)
| Panic
| OutOfFuel.
Arguments Ok {X A} a.
Arguments Err {X A} x.
Arguments Panic {X A}.
Arguments OutOfFuel {X A}.

(** ** Errors *)

(** `external_memory_tools::BufferError` (crate external-memory-tools 0.1.1);
    the external memory error payload is abstracted to a number. *)
(** Wrapped in error.rs:115-122 `ParserError::Buffer`. *)
Inductive buf_err : Type :=
| BExternal (code : N)
| DataTooShort (position : nat) (minimal_length : N)
| OutOfRange (position : nat) (total_length : nat).

(** /repo/src/error.rs:169-177 `RegistryInternalError`. *)
Inductive int_err : Type :=
| CyclicMetadata (id : N)
| ExtrinsicNoCallParam
| NotBitOrderType (id : N)
| NotBitStoreType (id : N)
| TypeNotResolved (id : N)
| UnexpectedCompactInsides (id : N)
| UnexpectedExtrinsicTypeR (id : N).

(** /repo/src/error.rs:149-152 `RegistryError`. *)
Inductive reg_err : Type :=
| RExternal (code : N)
| RInternal (x : int_err).

(** /repo/src/error.rs:115-122 `ParserError`. *)
Inductive parser_err : Type :=
| PBuffer (x : buf_err)
| PRegistry (x : reg_err)
| NoCompact (position : nat)
| SomeDataNotUsedBlob (from : nat)
| TypeFailure (position : nat) (ty : string)
| UnexpectedEnumVariant (position : nat).

(** ** The monad

    A computation receives the current parser position (the `position: &mut usize`
    argument) and the external memory state (`ext_memory: &mut E`) and returns an
    outcome together with the new position and memory, on every outcome. *)
(** Arguments and result of e.g. decoding_sci.rs:260-267 `decode_with_type`. *)
Definition M (E X A : Type) : Type := nat -> E -> outcome X A * nat * E.

(** `Ok(..)`, `Err(..)`, `expect(..)`, e.g. compacts.rs:64-70, special_types.rs:113-122. *)
Definition ret {E X A} (a : A) : M E X A := fun p e => (Ok a, p, e).
Definition fail {E X A} (x : X) : M E X A := fun p e => (Err x, p, e).
Definition panic {E X A} : M E X A := fun p e => (Panic, p, e).
Definition out_of_fuel {E X A} : M E X A := fun p e => (OutOfFuel, p, e).

(** The `?` operator. *)
(** E.g. decoding_sci.rs:136. *)
Definition bind {E X A B} (m : M E X A) (f : A -> M E X B) : M E X B :=
  fun p e =>
    match m p e with
    | (Ok a, p', e') => f a p' e'
    | (Err x, p', e') => (Err x, p', e')
    | (Panic, p', e') => (Panic, p', e')
    | (OutOfFuel, p', e') => (OutOfFuel, p', e')
    end.

Notation "'do' x <- m ; k" := (bind m (fun x => k))
  (at level 200, x pattern, m at level 100, k at level 200, right associativity).
Notation "m ;; k" := (bind m (fun _ => k)) (at level 100, right associativity).

(** `*position`, `*position = ..`, e.g. compacts.rs:85-86. *)
Definition get_pos {E X} : M E X nat := fun p e => (Ok p, p, e).
Definition set_pos {E X} (q : nat) : M E X unit := fun _ e => (Ok tt, q, e).

(** `map_err` / `From` conversions inserted by `?`. *)
(** E.g. lib.rs:582-583, decoding_sci.rs:166-188. *)
Definition map_err {E X Y A} (f : X -> Y) (m : M E X A) : M E Y A :=
  fun p e =>
    match m p e with
    | (Ok a, p', e') => (Ok a, p', e')
    | (Err x, p', e') => (Err (f x), p', e')
    | (Panic, p', e') => (Panic, p', e')
    | (OutOfFuel, p', e') => (OutOfFuel, p', e')
    end.

(** A `match` on a `Result`: errors become values; panics propagate. *)
(** E.g. lib.rs:585-594, special_types.rs:461-478. *)
Definition catch {E X Y A} (m : M E X A) : M E Y (A + X) :=
  fun p e =>
    match m p e with
    | (Ok a, p', e') => (Ok (inl a), p', e')
    | (Err x, p', e') => (Ok (inr x), p', e')
    | (Panic, p', e') => (Panic, p', e')
    | (OutOfFuel, p', e') => (OutOfFuel, p', e')
    end.

(** Result of a pure function. *)
(** E.g. `propagated.reject_compact()?`, decoding_sci.rs:340. *)
Definition lift {E X A} (r : A + X) : M E X A :=
  match r with inl a => ret a | inr x => fail x end.

(** ** Data sources *)

(** `external_memory_tools::AddressableBuffer<E>`: total length and slice reading.
    `read_byte` is `read_slice` of length 1 in the crate's `&[u8]` implementation. *)
(** Used e.g. in compacts.rs:37-50. *)
Record buffer (E : Type) : Type := Buffer {
  total_len : nat;
  rd : nat -> N -> E -> (bytes + buf_err) * E
}.
Arguments total_len {E} b.
Arguments rd {E} b p n e.

(** `read_slice`; does not touch the position. *)
(** Used e.g. in compacts.rs:37-50. *)
Definition read_slice {E} (b : buffer E) (p : nat) (n : N) : M E parser_err bytes :=
  fun q e =>
    match rd b p n e with
    | (inl l, e') => (Ok l, q, e')
    | (inr x, e') => (Err (PBuffer x), q, e')
    end.

(** `read_byte`.  A buffer that answers a request for one byte with another number of
    bytes breaks the trait contract; the model makes that a panic. *)
(** Used in decoding_sci.rs:701 and unchecked_extrinsic.rs:115-117. *)
Definition read_byte {E} (b : buffer E) (p : nat) : M E parser_err N :=
  do l <- read_slice b p 1;
  match l with
  | [x] => ret x
  | _ => panic
  end.

(** The bytes [p, p+n) of a list. *)
(** `&[u8]` as buffer, e.g. traits.rs:157-162. *)
Definition slice (l : bytes) (p n : nat) : bytes := firstn n (skipn p l).

(** `AddressableBuffer` for `&[u8]` (external-memory-tools 0.1.1): reading before the
    end but past the data is DataTooShort, starting past the end is OutOfRange. *)
(** `&[u8]` as buffer, e.g. traits.rs:157-162. *)
Definition slice_rd {E} (l : bytes) (p : nat) (n : N) (e : E) : (bytes + buf_err) * E :=
  if Nat.ltb (List.length l) p then (inr (OutOfRange p (List.length l)), e)
  else if (N.of_nat (List.length l) <? N.of_nat p + n)%N then (inr (DataTooShort p n), e)
  else (inl (slice l p (N.to_nat n)), e).

(** `&[u8]` as buffer, e.g. traits.rs:157-162. *)
Definition slice_buffer {E} (l : bytes) : buffer E := Buffer E (List.length l) (slice_rd l).

(** `AddressableBuffer::limit_length`: the same source cut to [n] bytes; an error if
    the source is shorter. For `&[u8]`: `&self[..n]`. *)
(** Used in lib.rs:609-613 `data_no_extensions`. *)
Definition limited_rd {E} (b : buffer E) (n : nat) (p : nat) (k : N) (e : E)
  : (bytes + buf_err) * E :=
  if Nat.ltb n p then (inr (OutOfRange p n), e)
  else if (N.of_nat n <? N.of_nat p + k)%N then (inr (DataTooShort p k), e)
  else rd b p k e.

(** Used in lib.rs:609-613 `data_no_extensions`. *)
Definition limit_length {E} (b : buffer E) (n : nat) : option (buffer E) :=
  if Nat.ltb (total_len b) n then None
  else Some (Buffer E n (limited_rd b n)).

(** ** Strings *)

(** `SET.contains(&s)`, e.g. special_indicators.rs:363-383. *)
Definition str_in (s : string) (l : list string) : bool := existsb (String.eqb s) l.

(** [join sep l]: `Vec<String>::join`. *)
(** Used in cards.rs:88-105 and 63-79. *)
Fixpoint join (sep : string) (l : list string) : string :=
  match l with
  | [] => EmptyString
  | [s] => s
  | s :: r => append s (append sep (join sep r))
  end.

(** `is_empty()`, cards.rs:57-59. *)
Definition str_is_empty (s : string) : bool :=
  match s with EmptyString => true | _ => false end.

(** Text with the given (UTF-8) bytes. *)
(** decoding_sci.rs:137. *)
Fixpoint string_of_bytes (l : bytes) : string :=
  match l with
  | [] => EmptyString
  | b :: r => String (ascii_of_N b) (string_of_bytes r)
  end.

(** Comparison of a namespace, e.g. special_indicators.rs:492-553. *)
Fixpoint strs_eqb (a b : list string) : bool :=
  match a, b with
  | [], [] => true
  | x :: a', y :: b' => String.eqb x y && strs_eqb a' b'
  | _, _ => false
  end.
