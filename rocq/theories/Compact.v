(** SCALE compacts: parity-scale-codec 3.6.12 `Compact<T>::decode` and
    /repo/src/compacts.rs.  No proofs here. *)
From Verif Require Import Base.
Local Open Scope N_scope.

(** Unsigned integer types that have a compact form. *)
(** The instances used in special_types.rs:222-244 and decoding_sci.rs:58-118. *)
Inductive uwidth := U8 | U16 | U32 | U64 | U128.

(** The instances used in special_types.rs:222-244 and decoding_sci.rs:58-118. *)
Definition usize (w : uwidth) : nat :=
  match w with U8 => 1 | U16 => 2 | U32 => 4 | U64 => 8 | U128 => 16 end%nat.

(** The instances used in special_types.rs:222-244 and decoding_sci.rs:58-118. *)
Definition umax (w : uwidth) : N := 256 ^ N.of_nat (usize w) - 1.

(** Reading [n] bytes from the front of the input, as `Input::read`. *)
(** Called in compacts.rs:51 (`<Compact<T>>::decode`). *)
Definition take (n : nat) (l : bytes) : option (bytes * bytes) :=
  if Nat.leb n (List.length l) then Some (firstn n l, skipn n l) else None.

(** Called in compacts.rs:51 (`<Compact<T>>::decode`). *)
Definition take_le (n : nat) (l : bytes) : option N :=
  match take n l with Some (a, _) => Some (le_val a) | None => None end.

(** `x > u64::MAX >> ((8 - n + 1) * 8)` and likewise for u128: the least value that
    needs [n] bytes is 2^(8(n-1)). *)
(** Called in compacts.rs:51 (`<Compact<T>>::decode`). *)
Definition big_min (n : nat) : N := 256 ^ N.of_nat (n - 1) - 1.

(** The fallible integer conversions of the four modes, per width; parity-scale-codec
    3.6.12 src/compact.rs `impl Decode for Compact<u8/u16/u32/u64/u128>`.
    [None] = "out of range" or end of input. Trailing input is ignored. *)
(** Called in compacts.rs:51 (`<Compact<T>>::decode`). *)
Definition mode3_sizes (w : uwidth) : list nat :=
  match w with
  | U8 | U16 => []
  | U32 => [4%nat]
  | U64 => [4; 5; 6; 7; 8]%nat
  | U128 => [4; 5; 6; 7; 8; 9; 10; 11; 12; 13; 14; 15; 16]%nat
  end.

(** Called in compacts.rs:51 (`<Compact<T>>::decode`). *)
Definition compact_decode (w : uwidth) (l : bytes) : option N :=
  match l with
  | [] => None
  | prefix :: rest =>
      match prefix mod 4 with
      | 0 => Some (prefix / 4)
      | 1 =>
          match take_le 2 l with
          | Some y => let x := y / 4 in
              if (63 <? x) && (x <=? N.min 16383 (umax w)) then Some x else None
          | None => None
          end
      | 2 =>
          match w with
          | U8 => None
          | _ =>
            match take_le 4 l with
            | Some y => let x := y / 4 in
                if (16383 <? x) && (x <=? N.min 1073741823 (umax w)) then Some x else None
            | None => None
            end
          end
      | _ =>
          let n := N.to_nat (prefix / 4 + 4) in
          if existsb (Nat.eqb n) (mode3_sizes w) then
            match take_le n rest with
            | Some x =>
                if Nat.eqb n 4 then (if 1073741823 <? x then Some x else None)
                else (if big_min n <? x then Some x else None)
            | None => None
            end
          else None
      end
  end.

(** /repo/src/compacts.rs:20 `MAX_COMPACT_LEN`. *)
Definition MAX_COMPACT_LEN : nat := 17.

(** /repo/src/compacts.rs:26-71 `find_compact`: tries slices of length 1, 2, ...
    The loop `for i in 0..(total_len - position)` with `if i > MAX_COMPACT_LEN break`
    is recursion over the remaining iteration count [k], [i] being the loop variable.
    Simplification: `start_next_unit` is `position + i + 1` — the other branch of
    lines 51-55 (`total_len - position == i`) is unreachable inside the loop. *)
Fixpoint find_loop {E} (w : uwidth) (b : buffer E) (position : nat) (k i : nat)
  : M E parser_err (option (N * nat)) :=
  match k with
  | O => ret None
  | S k' =>
      if Nat.ltb MAX_COMPACT_LEN i then ret None
      else
        do hippo <- read_slice b position (N.of_nat (i + 1));
        match compact_decode w hippo with
        | Some c => ret (Some (c, (position + i + 1)%nat))
        | None => find_loop w b position k' (i + 1)
        end
  end.

(** /repo/src/compacts.rs:26-71 `find_compact`. *)
Definition find_compact {E} (w : uwidth) (b : buffer E) (position : nat)
  : M E parser_err (N * nat) :=
  if Nat.ltb (total_len b) position then
    fail (PBuffer (OutOfRange position (total_len b)))
  else
    do out <- find_loop w b position (total_len b - position) 0;
    match out with
    | Some c => ret c
    | None => fail (NoCompact position)
    end.

(** /repo/src/compacts.rs:74-88 `get_compact`. *)
Definition get_compact {E} (w : uwidth) (b : buffer E) : M E parser_err N :=
  do position <- get_pos;
  do found <- find_compact w b position;
  set_pos (snd found) ;;
  ret (fst found).
