(** C01, C02: compact integers.  Only statements; proofs in ProofCompact.v. *)
From Verif Require Import Base Compact Types Spec ProofBase ProofCompact.
Local Open Scope list_scope.

(** C01: the canonical encoding of [n], anywhere in a buffer, is found with the value and
    the position right after it; and [get_compact] moves the position there. *)
Theorem c01_compact_round_trip : forall (E : Type) (w : uwidth) (n : N) (pre post : bytes) (p : nat) (e : E),
  is_bytes (pre ++ post) -> fits w n = true ->
  let data := pre ++ compact_enc n ++ post in
  let next := List.length (pre ++ compact_enc n) in
  find_compact w (slice_buffer data) (List.length pre) p e = (Ok (n, next), p, e) /\
  get_compact w (slice_buffer data) (List.length pre) e = (Ok n, next, e).
Proof. exact compact_round_trip. Qed.
Print Assumptions c01_compact_round_trip.

Example c01_example :
  fits U128 (2 ^ 100) = true /\
  find_compact U128 (slice_buffer ([7%N] ++ compact_enc (2 ^ 100) ++ [1; 2]%N)) 1 0 tt
  = (Ok ((2 ^ 100)%N, 15%nat), 0%nat, tt).
Proof. split; vm_compute; reflexivity. Qed.

(** C02: whatever is found is the canonical encoding of a value that fits, inside the
    buffer; and if nothing is found there is no canonical encoding at that position, and
    the position is unchanged. *)
Theorem c02_compact_canonical : forall (E : Type) (w : uwidth) (data : bytes) (p : nat) (e : E),
  is_bytes data ->
  (exists n post, skipn p data = compact_enc n ++ post /\ fits w n = true /\
     get_compact w (slice_buffer data) p e = (Ok n, (p + List.length (compact_enc n))%nat, e) /\
     (p + List.length (compact_enc n) <= List.length data)%nat)
  \/
  ((forall n post, skipn p data = compact_enc n ++ post -> fits w n = false) /\
   exists x, get_compact w (slice_buffer data) p e = (Err x, p, e) /\
     (x = NoCompact p \/ x = PBuffer (OutOfRange p (List.length data)) /\ (List.length data < p)%nat)).
Proof. exact compact_canonical. Qed.
Print Assumptions c02_compact_canonical.

(** Both sides occur: a non-canonical encoding (0 in two bytes) is refused. *)
Example c02_example_refused :
  get_compact U32 (slice_buffer [1; 0; 0]%N) 0 tt = (Err (NoCompact 0), 0%nat, tt).
Proof. vm_compute; reflexivity. Qed.
Example c02_example_found :
  get_compact U32 (slice_buffer [9; 21; 1; 0]%N) 1 tt = (Ok 69%N, 3%nat, tt).
Proof. vm_compute; reflexivity. Qed.
