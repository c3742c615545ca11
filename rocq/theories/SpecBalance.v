(** What displayed balances mean (C35, C36). *)
From Coq Require Import QArith.
From Verif Require Import Base.
Local Open Scope string_scope.

(** Decimal digits, most significant first. *)
Definition is_digit (c : ascii) : bool := (48 <=? N_of_ascii c)%N && (N_of_ascii c <=? 57)%N.
Fixpoint all_digits (s : string) : bool :=
  match s with "" => true | String c r => is_digit c && all_digits r end.
Fixpoint value_from (acc : N) (s : string) : N :=
  match s with "" => acc | String c r => value_from (10 * acc + (N_of_ascii c - 48)) r end.
Definition digits_value (s : string) : N := value_from 0 s.

(** Unit prefixes and their powers of ten. *)
Definition prefixes : list (string * Z) :=
  [("T", 12); ("G", 9); ("M", 6); ("k", 3); ("", 0); ("m", -3); ("u", -6); ("n", -9); ("p", -12);
   ("f", -15); ("a", -18)]%Z.

(** [displays number int frac]: the number is written with this integer part and fraction. *)
Definition displays (number int frac : string) : Prop :=
  int <> "" /\ all_digits int = true /\ all_digits frac = true /\
  ((frac = "" /\ number = int) \/ (frac <> "" /\ number = int ++ "." ++ frac)).

(** The amount denoted by integer part, fraction and prefix: the digits, with the point
    moved, times the power of ten. *)
Definition amount (int frac : string) (exponent : Z) : Q :=
  inject_Z (Z.of_N (digits_value (int ++ frac))) * Qpower (10 # 1) (exponent - Z.of_nat (String.length frac)).

(** The number begins with a zero. *)
Definition leading_zero (s : string) : Prop := exists r, s = String "0" r.

(** The value with this many decimals may be shown with this integer part, fraction and
    prefix: it is the exact amount, with exactly the known digits after the point, an integer
    part of one to three digits (any number with the largest prefix) and no leading zero
    (except below one of the smallest prefix). *)
Definition best_display (value decimals : N) (int frac prefix : string) (exponent : Z) : Prop :=
  In (prefix, exponent) prefixes /\
  int <> "" /\ all_digits int = true /\ all_digits frac = true /\
  (amount int frac exponent == inject_Z (Z.of_N value) * Qpower (10 # 1) (- Z.of_N decimals))%Q /\
  Z.of_nat (String.length frac) = Z.max 0 (Z.of_N decimals + exponent) /\
  ((String.length int <= 3)%nat \/ prefix = "T") /\
  ((0 < value)%N -> ~ leading_zero int \/ (int = "0" /\ prefix = "a")).
