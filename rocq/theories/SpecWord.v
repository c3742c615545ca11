(** Machine words (C64). *)
From Verif Require Import Base Compact Types Spec.

(** A request for [n] bytes from position [p] of a memory: it starts not after [B], and is shorter
    than 2^32 bytes or ends not after [B]. *)
Definition asked (B : nat) (p : nat) (n : N) : Prop :=
  p <= B /\ ((n < 4294967296)%N \/ (N.of_nat p + n <= N.of_nat B)%N).

(** The memory holds bytes. *)
Definition gives_bytes {E} (b : buffer E) : Prop :=
  forall p n e l e', rd b p n e = (inl l, e') -> is_bytes l.

(** A machine with [W]-bit words holds [len] bytes of data and the start position [pos], and either
    no sum of a position in the data and a 32-bit length overflows, or overflows wrap (and words
    have at least 32 bits). *)
Definition roomy (W : N) (wraps : bool) (len : nat) : Prop :=
  (N.of_nat len < 2 ^ W)%N /\
  ((N.of_nat len + 4294967296 <= 2 ^ W)%N \/ (wraps = true /\ (4294967296 <= 2 ^ W)%N)).

(** The data start with a compact announcing so many bytes that their end has no number in a
    [W]-bit word. *)
Definition overlong (W : N) (data : bytes) (n : N) : Prop :=
  fits U32 n = true /\ (exists rest, data = compact_enc n ++ rest) /\
  (2 ^ W <= N.of_nat (List.length (compact_enc n)) + n)%N.
