(** Addresses (SS58) of accounts and public keys, and the text of bit vectors.
    cards.rs:913-930 calls `to_base58_string(base58prefix)` of `substrate-crypto-light` 0.2.0
    (trait `AsBase58`), cards.rs:1076-1113 the `Display` of `bitvec` 1.0.1. *)
From Verif Require Import Base Compact Types Cards Blake2b.
Local Open Scope N_scope.
Local Open Scope list_scope.

(** ** Base 58 *)

(** `to_base58_string`, called in cards.rs:919-928. *)
Definition alphabet : string := "123456789ABCDEFGHJKLMNPQRSTUVWXYZabcdefghijkmnopqrstuvwxyz".
Definition letter (d : N) : ascii :=
  match String.get (N.to_nat d) alphabet with Some a => a | None => "?"%char end.

(** Digits of a number, most significant first; none for zero. *)
(** `to_base58_string`, called in cards.rs:919-928. *)
Fixpoint digits_loop (fuel : nat) (base n : N) (acc : list N) : list N :=
  match fuel with
  | O => acc
  | S k => if n =? 0 then acc else digits_loop k base (n / base) (n mod base :: acc)
  end.
Definition digits (base n : N) : list N := digits_loop (N.size_nat n) base n [].

(** The number of big-endian bytes. *)
(** `to_base58_string`, called in cards.rs:919-928. *)
Definition be_val (l : bytes) : N := fold_left (fun acc x => acc * 256 + x) l 0.

(** `to_base58_string`, called in cards.rs:919-928. *)
Fixpoint leading_zeros (l : bytes) : nat :=
  match l with 0 :: r => S (leading_zeros r) | _ => O end.

(** `to_base58_string`, called in cards.rs:919-928. *)
Definition base58_encode (l : bytes) : string :=
  string_of_list_ascii (map letter (repeat 0 (leading_zeros l) ++ digits 58 (be_val l))).

(** ** SS58 *)

(** The address type in one or two bytes; only 14 bits of the number are used. *)
(** `to_base58_string`, called in cards.rs:919-928. *)
Definition prefix_bytes (base58prefix : N) : bytes :=
  let ident := N.land base58prefix 0x3fff in
  if ident <? 64 then [ident]
  else
    let first := N.shiftr (N.land ident 0xfc mod 256) 2 in
    let second := N.lor (N.shiftr ident 8 mod 256) (N.shiftl (N.land ident 3 mod 256) 6 mod 256) in
    [N.lor first 0x40; second].

(** `to_base58_string`, called in cards.rs:919-928. *)
Definition ss58_pre : bytes := map N_of_ascii (list_ascii_of_string "SS58PRE").

Section Address.
(** Blake2b with 64 bytes of output. *)
Variable hash : bytes -> bytes.

(** `AsBase58::to_base58_string`. *)
(** `to_base58_string`, called in cards.rs:919-928. *)
Definition address_with (k : fixed_kind) (key : bytes) (base58prefix : N) : string :=
  let v := prefix_bytes base58prefix ++ key in
  base58_encode (v ++ firstn 2 (hash (ss58_pre ++ v))).
End Address.

(** `to_base58_string`, called in cards.rs:919-928. *)
Definition address : fixed_kind -> bytes -> N -> string := address_with blake2_512.

(** ** Bit vectors *)

(** The bits in groups of one storage element. *)
(** `Display` of `BitVec`, called in cards.rs:1076-1099. *)
Fixpoint groups (fuel n : nat) (l : list bool) : list (list bool) :=
  match fuel, l with
  | S k, _ :: _ => firstn n l :: groups k n (skipn n l)
  | _, _ => []
  end.
Fixpoint bit_chars (l : list bool) : string :=
  match l with [] => "" | b :: r => String (if b then "1" else "0") (bit_chars r) end.

(** `Display` of `BitVec`, called in cards.rs:1076-1099. *)
Definition bits_text (w : uwidth) (o : bit_order) (l : list bool) : string :=
  ("[" ++ String.concat ", " (map bit_chars (groups (List.length l) (8 * usize w) l)) ++ "]")%string.
