(** Blake2b without key (RFC 7693), as used for addresses (`substrate-crypto-light`) and for
    storage keys (`sp-crypto-hashing`: `blake2_128`).  Not code of /repo: called from
    cards.rs:913-930 (addresses) and storage_data.rs:231-281 (`check_hash!`).  The theorems
    about storage and addresses hold for any hash function; this one is used to replay tests. *)
From Verif Require Import Base.
Local Open Scope N_scope.
Local Open Scope list_scope.

(** Part of `blake2_128` (storage_data.rs:283) and `blake2_512` (cards.rs:920). *)
Definition word_limit : N := 2 ^ 64.
Definition add64 (a b : N) : N := (a + b) mod word_limit.
Definition rotr64 (a n : N) : N := N.lor (N.shiftr a n) (N.shiftl a (64 - n) mod word_limit).

(** Part of `blake2_128` (storage_data.rs:283) and `blake2_512` (cards.rs:920). *)
Definition blake_iv : list N :=
  [ 0x6a09e667f3bcc908; 0xbb67ae8584caa73b; 0x3c6ef372fe94f82b; 0xa54ff53a5f1d36f1;
    0x510e527fade682d1; 0x9b05688c2b3e6c1f; 0x1f83d9abfb41bd6b; 0x5be0cd19137e2179 ].

(** Message schedule. *)
(** Part of `blake2_128` (storage_data.rs:283) and `blake2_512` (cards.rs:920). *)
Definition sigma : list (list nat) :=
  [ [0; 1; 2; 3; 4; 5; 6; 7; 8; 9; 10; 11; 12; 13; 14; 15];
    [14; 10; 4; 8; 9; 15; 13; 6; 1; 12; 0; 2; 11; 7; 5; 3];
    [11; 8; 12; 0; 5; 2; 15; 13; 10; 14; 3; 6; 7; 1; 9; 4];
    [7; 9; 3; 1; 13; 12; 11; 14; 2; 6; 5; 10; 4; 0; 15; 8];
    [9; 0; 5; 7; 2; 4; 10; 15; 14; 1; 11; 12; 6; 8; 3; 13];
    [2; 12; 6; 10; 0; 11; 8; 3; 4; 13; 7; 5; 15; 14; 1; 9];
    [12; 5; 1; 15; 14; 13; 4; 10; 0; 7; 6; 3; 9; 2; 8; 11];
    [13; 11; 7; 14; 12; 1; 3; 9; 5; 0; 15; 4; 8; 6; 2; 10];
    [6; 15; 14; 9; 11; 3; 0; 8; 12; 2; 13; 7; 1; 4; 10; 5];
    [10; 2; 8; 4; 7; 6; 1; 5; 15; 11; 9; 14; 3; 12; 13; 0] ]%nat.

(** Part of `blake2_128` (storage_data.rs:283) and `blake2_512` (cards.rs:920). *)
Definition put (l : list N) (i : nat) (x : N) : list N := firstn i l ++ x :: skipn (S i) l.

(** Mixing function G. *)
(** Part of `blake2_128` (storage_data.rs:283) and `blake2_512` (cards.rs:920). *)
Definition mix (v : list N) (ia ib ic id : nat) (x y : N) : list N :=
  let a := nth ia v 0 in let b := nth ib v 0 in let c := nth ic v 0 in let d := nth id v 0 in
  let a := add64 (add64 a b) x in
  let d := rotr64 (N.lxor d a) 32 in
  let c := add64 c d in
  let b := rotr64 (N.lxor b c) 24 in
  let a := add64 (add64 a b) y in
  let d := rotr64 (N.lxor d a) 16 in
  let c := add64 c d in
  let b := rotr64 (N.lxor b c) 63 in
  put (put (put (put v ia a) ib b) ic c) id d.

(** Part of `blake2_128` (storage_data.rs:283) and `blake2_512` (cards.rs:920). *)
Definition blake_round (m : list N) (v : list N) (s : list nat) : list N :=
  let w i := nth (nth i s 0%nat) m 0 in
  let v := mix v 0 4 8 12 (w 0%nat) (w 1%nat) in
  let v := mix v 1 5 9 13 (w 2%nat) (w 3%nat) in
  let v := mix v 2 6 10 14 (w 4%nat) (w 5%nat) in
  let v := mix v 3 7 11 15 (w 6%nat) (w 7%nat) in
  let v := mix v 0 5 10 15 (w 8%nat) (w 9%nat) in
  let v := mix v 1 6 11 12 (w 10%nat) (w 11%nat) in
  let v := mix v 2 7 8 13 (w 12%nat) (w 13%nat) in
  mix v 3 4 9 14 (w 14%nat) (w 15%nat).

(** Little-endian words of a block of 128 bytes. *)
(** Part of `blake2_128` (storage_data.rs:283) and `blake2_512` (cards.rs:920). *)
Fixpoint words_of (k : nat) (l : bytes) : list N :=
  match k with O => [] | S k' => le_val (firstn 8 l) :: words_of k' (skipn 8 l) end.

(** Compression; [t] is the number of bytes so far. *)
(** Part of `blake2_128` (storage_data.rs:283) and `blake2_512` (cards.rs:920). *)
Definition compress (h : list N) (block : bytes) (t : N) (last : bool) : list N :=
  let m := words_of 16 block in
  let v := h ++ blake_iv in
  let v := put v 12 (N.lxor (nth 12 v 0) (t mod word_limit)) in
  let v := put v 13 (N.lxor (nth 13 v 0) (t / word_limit mod word_limit)) in
  let v := if last then put v 14 (N.lxor (nth 14 v 0) (word_limit - 1)) else v in
  let v := fold_left (blake_round m) (sigma ++ firstn 2 sigma) v in
  map (fun i => N.lxor (nth i h 0) (N.lxor (nth i v 0) (nth (i + 8) v 0))) (seq 0 8).

(** The last block is filled up with zeros. *)
(** Part of `blake2_128` (storage_data.rs:283) and `blake2_512` (cards.rs:920). *)
Definition fill (l : bytes) : bytes := l ++ repeat 0 (128 - List.length l).

(** Part of `blake2_128` (storage_data.rs:283) and `blake2_512` (cards.rs:920). *)
Fixpoint blocks (fuel : nat) (h : list N) (l : bytes) (t : N) : list N :=
  match fuel with
  | O => h
  | S k =>
      if (List.length l <=? 128)%nat then compress h (fill l) (t + N.of_nat (List.length l)) true
      else blocks k (compress h (firstn 128 l) (t + 128) false) (skipn 128 l) (t + 128)
  end.

(** Part of `blake2_128` (storage_data.rs:283) and `blake2_512` (cards.rs:920). *)
Fixpoint le_bytes64 (k : nat) (n : N) : bytes :=
  match k with O => [] | S k' => n mod 256 :: le_bytes64 k' (n / 256) end.

(** Part of `blake2_128` (storage_data.rs:283) and `blake2_512` (cards.rs:920). *)
Definition blake2b (out : nat) (l : bytes) : bytes :=
  let h := match blake_iv with a :: r => N.lxor a (0x01010000 + N.of_nat out) :: r | [] => [] end in
  firstn out (flat_map (le_bytes64 8) (blocks (S (List.length l)) h l 0)).

(** Part of `blake2_128` (storage_data.rs:283) and `blake2_512` (cards.rs:920). *)
Definition blake2_128 (l : bytes) : bytes := blake2b 16 l.
Definition blake2_512 (l : bytes) : bytes := blake2b 64 l.
