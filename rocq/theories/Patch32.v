(** Bit vectors with u64 store on 32-bit targets: /repo/src/decoding_sci.rs:1003-1127.
    No proofs here. *)
From Verif Require Import Base Compact Types Decode.
Local Open Scope list_scope.

(** decoding_sci.rs:1077-1096 `reform_vec_lsb0`; [l] is the list of 8-byte chunks,
    `i != data_chunked.len() - 1` is "not the last one". *)
Fixpoint reform_vec_lsb0 (l : list bytes) : list N :=
  match l with
  | [] => []
  | element :: rest =>
      let new_element1 := le_val (firstn 4 element) in
      let new_element2 := le_val (skipn 4 element) in
      let is_last := match rest with [] => true | _ => false end in
      new_element1
      :: (if negb (new_element1 =? 0)%N || negb is_last then [new_element2] else [])
      ++ reform_vec_lsb0 rest
  end.

(** decoding_sci.rs:1100-1121 `reform_vec_msb0`: big-endian halves of the u64. *)
Fixpoint reform_vec_msb0 (l : list bytes) : list N :=
  match l with
  | [] => []
  | x :: rest =>
      let number := le_val x in
      let new_element1 := (number / 2 ^ 32)%N in
      let new_element2 := (number mod 2 ^ 32)%N in
      let is_last := match rest with [] => true | _ => false end in
      (if negb (new_element1 =? 0)%N || negb is_last then [new_element1] else [])
      ++ new_element2 :: reform_vec_msb0 rest
  end.

(** decoding_sci.rs:1077-1122 `reform_vec_lsb0`, `reform_vec_msb0`. *)
Definition reform (o : bit_order) (l : list bytes) : list N :=
  match o with Lsb0 => reform_vec_lsb0 l | Msb0 => reform_vec_msb0 l end.

(** Chunk reading loop, decoding_sci.rs:1038-1056. *)
Fixpoint read_chunks {E} (b : buffer E) (start : nat) (err : parser_err) (k : nat)
  : M E parser_err (list bytes) :=
  match k with
  | O => ret []
  | S k' =>
      do x <- catch (read_slice b start 8);
      match x with
      | inr _ => fail err
      | inl l =>
          if Nat.eqb (List.length l) 8 then
            do tl <- read_chunks b (start + 8) err k';
            ret (l :: tl)
          else panic
      end
  end.

(** decoding_sci.rs:1029-1069 `patch_bitvec_u64`. `BitVec::from_vec` takes the bits of
    the u32 elements in the bit order; `split_off(bit_length)` panics if the vector is
    shorter than [bit_length]. *)
Definition patch_bitvec_u64 {E} (o : bit_order) (b : buffer E) : M E parser_err (list bool) :=
  do position <- get_pos;
  do x <- bitvec_positions b 8 position;
  let '(data_start, bit_length, minimal_length) := x in
  do chunks <- read_chunks b data_start (PBuffer (DataTooShort position minimal_length))
                 (N.to_nat (bitvec_elements 8 bit_length));
  set_pos (position + N.to_nat minimal_length)%nat ;;
  let bits := flat_map (elem_bits o 32) (reform o chunks) in
  if (N.of_nat (List.length bits) <? bit_length)%N then panic
  else ret (firstn (N.to_nat bit_length) bits).
