(** The parsers on a machine whose `usize` has [W] bits. No proofs here.

    Elsewhere in the model positions and lengths are unbounded. Here the sums of positions and
    lengths that the code computes before it knows that the result lies inside the data are
    computed as the machine does: an overflow panics (builds with overflow checks) or wraps
    (builds without, the default of release builds). The other sums move a position over bytes
    that were just read, so that the result is not larger than the length of the data. *)
From Verif Require Import Base Compact Types Indicators Decode Sign Unchecked Storage.

Inductive overflow := Checked | Wrapping.

Section Word.
Variable W : N.
Variable a : overflow.

(** `x + y` of two `usize`; [None] is a panic. *)
Definition add_w (x y : N) : option N :=
  if (x + y <? 2 ^ W)%N then Some (x + y)%N
  else match a with Checked => None | Wrapping => Some ((x + y) mod 2 ^ W)%N end.

(** `AddressableBuffer::read_slice` for `&[u8]` (external-memory-tools 0.1.1):
    `self.get(position..position + slice_len)`. The panic of an overflowing sum is shown as an
    error of the memory with the number [OVERFLOW]. *)
Definition OVERFLOW : N := 0.
Definition word_rd {E} (l : bytes) (p : nat) (n : N) (e : E) : (bytes + buf_err) * E :=
  if Nat.ltb (List.length l) p then (inr (OutOfRange p (List.length l)), e)
  else
    match add_w (N.of_nat p) n with
    | None => (inr (BExternal OVERFLOW), e)
    | Some stop =>
        if ((N.of_nat p <=? stop) && (stop <=? N.of_nat (List.length l)))%N then
          (inl (slice l p (N.to_nat stop - p)), e)
        else (inr (DataTooShort p n), e)
    end.
Definition word_buffer {E} (l : bytes) : buffer E := Buffer E (List.length l) (word_rd l).

Section Sign.
Context {E ME : Type}.

(** lib.rs:580-595 `MarkedData::mark`; line 584 is the sum. *)
Definition mark_w (data : bytes) : M E (signable_err ME) marked :=
  do x <- map_err (fun _ => CutSignable) (at_local 0 (get_compact U32 (word_buffer data)));
  let '(call_length, call_start) := x in
  match add_w (N.of_nat call_start) call_length with
  | None => panic
  | Some extensions_start =>
      do res <- catch (read_slice (word_buffer data) call_start call_length);
      match res with
      | inl _ => ret (Marked call_start (N.to_nat extensions_start))
      | inr _ => fail CutSignable
      end
  end.

(** decoding_sci.rs:166-190 `decode_as_call`; lib.rs:609-613 `data_no_extensions`: the slice
    `&data[..extensions_start]`. *)
Definition decode_as_call_w (data : bytes) (mk : marked) (m : metadata E ME) : M E (signable_err ME) (psdata pdata) :=
  if Nat.ltb (List.length data) (extensions_start mk) then panic
  else
    do x <- at_local (call_start mk) (decode_as_call_unmarked (word_buffer (firstn (extensions_start mk) data)) m);
    let '(call, position) := x in
    if Nat.eqb position (extensions_start mk) then ret call
    else fail (SomeDataNotUsedCall position (extensions_start mk)).

(** lib.rs:675-703 `parse_transaction`. *)
Definition parse_transaction_w (data : bytes) (m : metadata E ME) (g : option bytes)
  : M E (signable_err ME) (transaction_parsed ME) :=
  do mk <- mark_w data;
  do extensions <- decode_extensions (word_buffer data) mk m g;
  do call_result <- catch (decode_as_call_w data mk m);
  ret (TransactionParsed call_result extensions).

(** unchecked_extrinsic.rs:72-190 `decode_as_unchecked_extrinsic`; lines 93, 98 and 105 are the
    sum. *)
Definition decode_unchecked_body_w (data : bytes) (m : metadata E ME) : M E (unchecked_err ME) unchecked :=
  let b := word_buffer data in
  do params <- map_err UMetaStructure (lift (m_extrinsic_type_params m));
  let r := m_types m in
  do extrinsic_length <- map_err (fun _ => FormatNoCompact) (get_compact U32 b);
  do extrinsic_start <- get_pos;
  let len := N.of_nat (total_len b) in
  match add_w (N.of_nat extrinsic_start) extrinsic_length with
  | None => panic
  | Some expected =>
  if (len <? expected)%N then
    fail (UParsing (PBuffer (DataTooShort (total_len b) (expected - len))))
  else if (expected <? len)%N then
    fail (UParsing (SomeDataNotUsedBlob (N.to_nat expected)))
  else
    do version_byte <- map_err UParsing (read_byte b extrinsic_start);
    set_pos (extrinsic_start + VERSION_LENGTH)%nat ;;
    do version <- map_err UMetaStructure (lift (m_extrinsic_version m));
    if negb (N.land version_byte VERSION_MASK =? version)%N then
      fail (VersionMismatch version_byte version)
    else if (N.land version_byte VERSION_MASK_NEG =? 0)%N then
      do call <- map_err UParsing (decode_as_type_at_position b r (ep_call params));
      match x_data call with
      | DCall c => ret (UxUnsigned c)
      | _ => fail (UnexpectedCallTy (ep_call params))
      end
    else
      do address <- map_err UParsing (decode_as_type_at_position b r (ep_address params));
      do signature <- map_err UParsing (decode_as_type_at_position b r (ep_signature params));
      do extra <- map_err UParsing (decode_as_type_at_position b r (ep_extra params));
      do call <- map_err UParsing (decode_as_type_at_position b r (ep_call params));
      match x_data call with
      | DCall c => ret (UxSigned address signature extra c)
      | _ => fail (UnexpectedCallTy (ep_call params))
      end
  end.

Definition decode_as_unchecked_extrinsic_w (data : bytes) (m : metadata E ME) : M E (unchecked_err ME) unchecked :=
  do x <- at_local 0 (decode_unchecked_body_w data m); ret (fst x).
End Sign.
End Word.
