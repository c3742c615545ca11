(** Unchecked extrinsics: /repo/src/unchecked_extrinsic.rs. No proofs here. *)
From Verif Require Import Base Compact Types Indicators Decode Sign.
Local Open Scope list_scope.

(** error.rs:328-334 `UncheckedExtrinsicError`. *)
Inductive unchecked_err (ME : Type) :=
| FormatNoCompact
| UMetaStructure (x : ME)
| UParsing (x : parser_err)
| VersionMismatch (version_byte version : N)
| UnexpectedCallTy (id : N).
Arguments FormatNoCompact {ME}.
Arguments UMetaStructure {ME} x.
Arguments UParsing {ME} x.
Arguments VersionMismatch {ME} version_byte version.
Arguments UnexpectedCallTy {ME} id.

(** unchecked_extrinsic.rs:196-206 `UncheckedExtrinsic`. *)
Inductive unchecked :=
| UxSigned (address signature extra : ext pdata) (call : psdata pdata)
| UxUnsigned (call : psdata pdata).

(** unchecked_extrinsic.rs:63-69. *)
Definition VERSION_LENGTH : nat := 1.
Definition VERSION_MASK : N := 127.
Definition VERSION_MASK_NEG : N := 128.

(** unchecked_extrinsic.rs:72-191 `decode_as_unchecked_extrinsic`. The local variables
    `extrinsic_start` and `position` are the position of a local computation. *)
Definition decode_unchecked_body {E ME} (b : buffer E) (m : metadata E ME)
  : M E (unchecked_err ME) unchecked :=
  do params <- map_err UMetaStructure (lift (m_extrinsic_type_params m));
  let r := m_types m in
  do extrinsic_length <- map_err (fun _ => FormatNoCompact) (get_compact U32 b);
  do extrinsic_start <- get_pos;
  let len := N.of_nat (total_len b) in
  let expected := (N.of_nat extrinsic_start + extrinsic_length)%N in
  if (len <? expected)%N then
    fail (UParsing (PBuffer (DataTooShort (total_len b) (expected - len))))
  else if (expected <? len)%N then
    fail (UParsing (SomeDataNotUsedBlob (N.to_nat expected)))
  else
    do version_byte <- map_err UParsing (read_byte b extrinsic_start);
    set_pos (extrinsic_start + VERSION_LENGTH)%nat ;;
    do version <- map_err UMetaStructure (lift (m_extrinsic_version m));
    if negb (N.land version_byte VERSION_MASK =? version)%N then
      fail (VersionMismatch version_byte version)
    else if (N.land version_byte VERSION_MASK_NEG =? 0)%N then
      do call <- map_err UParsing (decode_as_type_at_position b r (ep_call params));
      match x_data call with
      | DCall c => ret (UxUnsigned c)
      | _ => fail (UnexpectedCallTy (ep_call params))
      end
    else
      do address <- map_err UParsing (decode_as_type_at_position b r (ep_address params));
      do signature <- map_err UParsing (decode_as_type_at_position b r (ep_signature params));
      do extra <- map_err UParsing (decode_as_type_at_position b r (ep_extra params));
      do call <- map_err UParsing (decode_as_type_at_position b r (ep_call params));
      match x_data call with
      | DCall c => ret (UxSigned address signature extra c)
      | _ => fail (UnexpectedCallTy (ep_call params))
      end.

(** unchecked_extrinsic.rs:72-192 `decode_as_unchecked_extrinsic`. *)
Definition decode_as_unchecked_extrinsic {E ME} (b : buffer E) (m : metadata E ME)
  : M E (unchecked_err ME) unchecked :=
  do x <- at_local 0 (decode_unchecked_body b m); ret (fst x).
