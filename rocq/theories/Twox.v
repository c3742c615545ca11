(** xxHash64, as used for storage keys (`sp-crypto-hashing`: `twox_64`, and `twox_128` for the
    prefixes of keys).  Not code of /repo: called from storage_data.rs:231-281 (`check_hash!`).
    The theorems about storage hold for any hash function; this one is used for tests. *)
From Verif Require Import Base Blake2b.
Local Open Scope N_scope.
Local Open Scope list_scope.

(** Part of `twox_64` (storage_data.rs:284) and `twox_128` (storage_data.rs:9). *)
Definition mul64 (a b : N) : N := (a * b) mod word_limit.
Definition sub64 (a b : N) : N := (a + word_limit - b) mod word_limit.
Definition rotl64 (a n : N) : N := rotr64 a (64 - n).

(** Part of `twox_64` (storage_data.rs:284) and `twox_128` (storage_data.rs:9). *)
Definition prime1 : N := 0x9E3779B185EBCA87.
Definition prime2 : N := 0xC2B2AE3D27D4EB4F.
Definition prime3 : N := 0x165667B19E3779F9.
Definition prime4 : N := 0x85EBCA77C2B2AE63.
Definition prime5 : N := 0x27D4EB2F165667C5.

(** Part of `twox_64` (storage_data.rs:284) and `twox_128` (storage_data.rs:9). *)
Definition xx_round (acc lane : N) : N :=
  mul64 (rotl64 (add64 acc (mul64 lane prime2)) 31) prime1.
Definition xx_merge (acc lane : N) : N :=
  add64 (mul64 (N.lxor acc (xx_round 0 lane)) prime1) prime4.

(** Stripes of 32 bytes. *)
(** Part of `twox_64` (storage_data.rs:284) and `twox_128` (storage_data.rs:9). *)
Fixpoint stripes (fuel : nat) (a b c d : N) (l : bytes) : N * N * N * N * bytes :=
  match fuel with
  | O => (a, b, c, d, l)
  | S k =>
      if (32 <=? List.length l)%nat then
        stripes k (xx_round a (le_val (firstn 8 l))) (xx_round b (le_val (firstn 8 (skipn 8 l))))
          (xx_round c (le_val (firstn 8 (skipn 16 l)))) (xx_round d (le_val (firstn 8 (skipn 24 l)))) (skipn 32 l)
      else (a, b, c, d, l)
  end.

(** The rest: words of 8 bytes, one of 4, single bytes. *)
(** Part of `twox_64` (storage_data.rs:284) and `twox_128` (storage_data.rs:9). *)
Fixpoint tail_words (fuel : nat) (acc : N) (l : bytes) : N * bytes :=
  match fuel with
  | O => (acc, l)
  | S k =>
      if (8 <=? List.length l)%nat then
        tail_words k (add64 (mul64 (rotl64 (N.lxor acc (xx_round 0 (le_val (firstn 8 l)))) 27) prime1) prime4) (skipn 8 l)
      else (acc, l)
  end.
Definition tail_half (acc : N) (l : bytes) : N * bytes :=
  if (4 <=? List.length l)%nat then
    (add64 (mul64 (rotl64 (N.lxor acc (mul64 (le_val (firstn 4 l)) prime1)) 23) prime2) prime3, skipn 4 l)
  else (acc, l).
Definition tail_bytes (acc : N) (l : bytes) : N :=
  fold_left (fun acc x => mul64 (rotl64 (N.lxor acc (mul64 x prime5)) 11) prime1) l acc.

(** Part of `twox_64` (storage_data.rs:284) and `twox_128` (storage_data.rs:9). *)
Definition xxh64 (seed : N) (l : bytes) : N :=
  let n := List.length l in
  let '(acc, rest) :=
    if (32 <=? n)%nat then
      let '(a, b, c, d, rest) :=
        stripes n (add64 (add64 seed prime1) prime2) (add64 seed prime2) seed (sub64 seed prime1) l in
      let acc := add64 (add64 (rotl64 a 1) (rotl64 b 7)) (add64 (rotl64 c 12) (rotl64 d 18)) in
      (xx_merge (xx_merge (xx_merge (xx_merge acc a) b) c) d, rest)
    else (add64 seed prime5, l) in
  let acc := add64 acc (N.of_nat n) in
  let '(acc, rest) := tail_words n acc rest in
  let '(acc, rest) := tail_half acc rest in
  let h := tail_bytes acc rest in
  let h := mul64 (N.lxor h (N.shiftr h 33)) prime2 in
  let h := mul64 (N.lxor h (N.shiftr h 29)) prime3 in
  N.lxor h (N.shiftr h 32).

(** Part of `twox_64` (storage_data.rs:284) and `twox_128` (storage_data.rs:9). *)
Definition twox_64 (l : bytes) : bytes := le_bytes64 8 (xxh64 0 l).
Definition twox_128 (l : bytes) : bytes := twox_64 l ++ le_bytes64 8 (xxh64 1 l).
