(** Addresses (C67): what texts in base 58 and SS58 addresses stand for. *)
From Verif Require Import Base Compact Types.
Local Open Scope N_scope.
Local Open Scope list_scope.

(** The letters in the order of their values: digits and letters without 0, O, I and l. *)
Definition letters58 : string := "123456789ABCDEFGHJKLMNPQRSTUVWXYZabcdefghijkmnopqrstuvwxyz".
Definition stands_for (c : ascii) (d : N) : Prop := d < 58 /\ String.get (N.to_nat d) letters58 = Some c.

(** The number with given digits, most significant first. *)
Fixpoint number (base : N) (l : list N) : N :=
  match l with
  | [] => 0
  | d :: r => d * base ^ N.of_nat (List.length r) + number base r
  end.
Definition no_zero_first (l : list N) : Prop := match l with 0 :: _ => False | _ => True end.

(** A text in base 58 of bytes: as many zeros first, then the same number. *)
Definition base58_text (s : string) (l : bytes) : Prop :=
  exists zeros ds m,
    Forall2 stands_for (list_ascii_of_string s) (repeat 0 zeros ++ ds) /\ l = repeat 0 zeros ++ m /\
    no_zero_first ds /\ no_zero_first m /\ number 58 ds = number 256 m.

(** Address types below 64 take a byte, others two: bits 7 to 2, marked with 64, and then bits
    1 and 0 above bits 13 to 8. *)
Definition type_bytes (p : N) (l : bytes) : Prop :=
  (p < 64 /\ l = [p]) \/
  (64 <= p /\ p < 16384 /\ l = [64 + p / 4 mod 64; 64 * (p mod 4) + p / 256]).

(** An address of type [p] for a key: type, key and two bytes of a hash of both. *)
Definition address_text (hash : bytes -> bytes) (s : string) (p : N) (key : bytes) : Prop :=
  exists t c, type_bytes p t /\ firstn 2 (hash (map N_of_ascii (list_ascii_of_string "SS58PRE") ++ t ++ key)) = c /\
    base58_text s (t ++ key ++ c).

(** Hash functions: at least two bytes. *)
Definition hash_like (hash : bytes -> bytes) : Prop :=
  forall l, is_bytes (hash l) /\ (2 <= List.length (hash l))%nat.
