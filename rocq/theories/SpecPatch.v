(** What the 32-bit replacement for u64 bit vectors does (C43): specification terms. *)
From Verif Require Import Base Compact Types Decode Spec SpecKinds.
Local Open Scope list_scope.

(** The 32-bit half of a u64 element holding its first 32 bits, and the other one. *)
Definition first_half (o : bit_order) (x : N) : N :=
  match o with Lsb0 => x mod 2 ^ 32 | Msb0 => x / 2 ^ 32 end%N.
Definition second_half (o : bit_order) (x : N) : N :=
  match o with Lsb0 => x / 2 ^ 32 | Msb0 => x mod 2 ^ 32 end%N.

(** A bit vector of [n] bits in the u64 elements [elems] stands at [pos]. *)
Definition stands (data : bytes) (pos : nat) (n : N) (elems : list N) : Prop :=
  fits U32 n = true /\ forallb (fits U64) elems = true /\
  N.of_nat (List.length elems) = ((n + 63) / 64)%N /\
  exists post, skipn pos data = compact_enc n ++ flat_map (le_bytes 8) elems ++ post.

Definition stands_length (n : N) (elems : list N) : nat :=
  (List.length (compact_enc n) + 8 * List.length elems)%nat.

(** The bits in the last, possibly incomplete, group of 64. *)
Definition last_group (bits : list bool) : list bool :=
  skipn (64 * ((List.length bits - 1) / 64)) bits.

(** The bit strings which make the replacement panic: the last group has more than 32 bits
    and begins with 32 zeros. *)
Definition bad_bits (bits : list bool) : bool :=
  (32 <? List.length (last_group bits))%nat && forallb negb (firstn 32 (last_group bits)).

(** When the half of the last element with the first 32 bits is zero it is dropped; for
    Msb0 the other half then takes its place. *)
Definition moved (o : bit_order) (x : N) : N := match o with Lsb0 => x | Msb0 => x * 2 ^ 32 end%N.

Definition patch_outcome (o : bit_order) (n : N) (elems : list N) : outcome parser_err (list bool) :=
  match rev elems with
  | x :: r =>
      if negb (first_half o x =? 0)%N then Ok (the_bits U64 o n elems)
      else if (64 * N.of_nat (List.length r) + 32 <? n)%N then Panic
      else Ok (the_bits U64 o n (rev r ++ [moved o x]))
  | [] => Ok (the_bits U64 o n elems)
  end.
