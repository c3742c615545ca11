(** Storage entries: /repo/src/storage_data.rs. No proofs here. *)
From Verif Require Import Base Compact Types Indicators Decode Sign.
Local Open Scope list_scope.

(** frame_metadata 18 v14 `StorageHasher`. *)
(** Used in storage_data.rs:308-353. *)
Inductive hasher :=
| Blake2_128 | Blake2_256 | Blake2_128Concat | Twox128 | Twox256 | Twox64Concat | Identity.

(** frame_metadata 18 v14 `StorageEntryType`, `StorageEntryMetadata` (name, modifier and
    default value are not used by the parser and are left out). *)
(** Used in storage_data.rs:157-185. *)
Inductive entry_type :=
| EPlain (value_ty : N)
| EMap (hashers : list hasher) (key_ty : N) (value_ty : N).

(** Used in storage_data.rs:157-185. *)
Record entry_meta := EntryMeta { en_ty : entry_type; en_docs : list string }.

(** error.rs:71-80 `StorageError`. *)
Inductive storage_err :=
| KeyPartHashMismatch
| KeyPartsUnused
| KeyShorterThanPrefix
| MultipleHashesNotATuple
| MultipleHashesNumberMismatch
| ParsingKey (x : parser_err)
| ParsingValue (x : parser_err)
| PlainKeyExceedsPrefix.

(** storage_data.rs:109-114 `Hash`: kind of opaque hash. *)
Inductive opaque_hash := HBlake2_128 | HBlake2_256 | HTwox128 | HTwox256.

(** storage_data.rs:89-95 `KeyPart`, `HashData`. *)
Inductive key_part :=
| KHash (k : opaque_hash) (h : bytes) (type_id : N)
| KParsed (x : ext pdata).

(** storage_data.rs:60-85 `KeyData`. *)
Inductive key_data :=
| KPlain
| KSingle (content : key_part)
| KTuple (content : list key_part) (i : info).

(** storage_data.rs:46-56 `Storage`. *)
Record storage := Storage { st_key : key_data; st_value : ext pdata; st_docs : string }.

(** storage_data.rs:117-129. *)
Definition BLAKE2_128_LEN : N := 16.
Definition BLAKE2_256_LEN : N := 32.
Definition TWOX128_LEN : N := 16.
Definition TWOX256_LEN : N := 32.
Definition TWOX64_LEN : N := 8.

Section Storage.
Context {E : Type}.
(** `sp_crypto_hashing::blake2_128` and `twox_64`: arbitrary functions. *)
Variable blake2_128 : bytes -> bytes.
Variable twox_64 : bytes -> bytes.

(** storage_data.rs:192-218 `cut_hash!`. *)
Definition cut_hash (len : N) (k : opaque_hash) (key_ty : N) (b : buffer E)
  : M E storage_err key_part :=
  do p <- get_pos;
  do s <- map_err ParsingKey (read_slice b p len);
  if (N.of_nat (List.length s) =? len)%N then
    set_pos (p + N.to_nat len)%nat ;; ret (KHash k s key_ty)
  else panic.

(** storage_data.rs:231-281 `check_hash!`. The re-read of the decoded bytes is
    `.expect("positions checked, valid slice")`. *)
Definition check_hash (len : N) (hash : bytes -> bytes) (id : N) (b : buffer E) (r : registry E)
  : M E storage_err key_part :=
  do p <- get_pos;
  do s <- map_err ParsingKey (read_slice b p len);
  if (N.of_nat (List.length s) =? len)%N then
    let position_decoder_starts := (p + N.to_nat len)%nat in
    set_pos position_decoder_starts ;;
    do parsed_key <- map_err ParsingKey (decode_with_type b r (Symbol id) propagated_new);
    do q <- get_pos;
    do again <- catch (read_slice b position_decoder_starts
                         (N.of_nat (q - position_decoder_starts)));
    match again with
    | inr _ => panic
    | inl content =>
        if bytes_eqb s (hash content) then ret (KParsed parsed_key)
        else fail KeyPartHashMismatch
    end
  else panic.

(** One key part: storage_data.rs:308-353 and 367-420. *)
Definition key_part_decode (h : hasher) (id : N) (b : buffer E) (r : registry E)
  : M E storage_err key_part :=
  match h with
  | Blake2_128 => cut_hash BLAKE2_128_LEN HBlake2_128 id b
  | Blake2_256 => cut_hash BLAKE2_256_LEN HBlake2_256 id b
  | Blake2_128Concat => check_hash BLAKE2_128_LEN blake2_128 id b r
  | Twox128 => cut_hash TWOX128_LEN HTwox128 id b
  | Twox256 => cut_hash TWOX256_LEN HTwox256 id b
  | Twox64Concat => check_hash TWOX64_LEN twox_64 id b r
  | Identity =>
      do x <- map_err ParsingKey (decode_with_type b r (Symbol id) propagated_new);
      ret (KParsed x)
  end.

(** storage_data.rs:365-421, the loop over tuple elements. *)
Fixpoint key_parts (hs : list hasher) (ids : list N) (b : buffer E) (r : registry E)
  : M E storage_err (list key_part) :=
  match hs, ids with
  | h :: hs', id :: ids' =>
      do x <- key_part_decode h id b r;
      do tl <- key_parts hs' ids' b r;
      ret (x :: tl)
  | _, _ => ret []
  end.

(** storage_data.rs:293-433 `process_key_mapped`; the position is local. *)
Definition process_key_body (hashers : list hasher) (key_ty : N) (b : buffer E) (r : registry E)
  : M E storage_err key_data :=
  do key_data <-
    match hashers with
    | [h] => do x <- key_part_decode h key_ty b r; ret (KSingle x)
    | _ =>
        do t <- map_err (fun x => ParsingKey (PRegistry x)) (resolve_ty r key_ty);
        match t_def t with
        | TTuple elems =>
            if Nat.eqb (List.length elems) (List.length hashers) then
              do content <- key_parts hashers elems b r;
              ret (KTuple content (info_from_ty t))
            else fail MultipleHashesNumberMismatch
        | _ => fail MultipleHashesNotATuple
        end
    end;
  do position <- get_pos;
  if Nat.eqb position (total_len b) then ret key_data else fail KeyPartsUnused.

(** storage_data.rs:293-433 `process_key_mapped`. *)
Definition process_key_mapped (hashers : list hasher) (key_ty : N) (b : buffer E)
    (position : nat) (r : registry E) : M E storage_err key_data :=
  do x <- at_local position (process_key_body hashers key_ty b r); ret (fst x).

(** lib.rs:801-825 as part of a larger computation. *)
Definition decode_all_m (b : buffer E) (r : registry E) (id : N) : M E parser_err (ext pdata) :=
  do x <- at_local 0 (decode_all_body b r id); ret (fst x).

(** storage_data.rs:138-186 `decode_as_storage_entry`. *)
Definition PREFIX_LEN : nat := 2 * N.to_nat TWOX128_LEN.

(** storage_data.rs:138-186 `decode_as_storage_entry`. *)
Definition decode_as_storage_entry (key_input value_input : buffer E) (entry : entry_meta)
    (r : registry E) : M E storage_err storage :=
  let docs := collect_docs (en_docs entry) in
  if Nat.ltb (total_len key_input) PREFIX_LEN then fail KeyShorterThanPrefix
  else
    match en_ty entry with
    | EPlain value_ty =>
        if negb (Nat.eqb PREFIX_LEN (total_len key_input)) then fail PlainKeyExceedsPrefix
        else
          do value <- map_err ParsingValue (decode_all_m value_input r value_ty);
          ret (Storage KPlain value docs)
    | EMap hashers key_ty value_ty =>
        do key <- process_key_mapped hashers key_ty key_input PREFIX_LEN r;
        do value <- map_err ParsingValue (decode_all_m value_input r value_ty);
        ret (Storage key value docs)
    end.

End Storage.
