(** What unchecked extrinsics look like (C30-C32). *)
From Verif Require Import Base Compact Types Indicators Decode Sign Unchecked Spec Api ApiSign.
Local Open Scope list_scope.

(** In-memory call of `decode_as_unchecked_extrinsic` (unchecked_extrinsic.rs:72-190). *)
Definition unchecked_extrinsic {ME} (c : chain ME) (data : bytes) : outcome (unchecked_err ME) unchecked :=
  result (decode_as_unchecked_extrinsic (slice_buffer data) (chain_metadata c)).

(** The data announces exactly its own length: [content] is what is announced. *)
Definition framed (data content : bytes) : Prop :=
  fits U32 (N.of_nat (List.length content)) = true /\
  data = compact_enc (N.of_nat (List.length content)) ++ content.

Section Content.
Variable types : list ty.
Variable params : extrinsic_params.

(** [parts signed content u rest]: the content after the version byte starts with the
    encoded parts shown as [u], followed by [rest]. *)
Inductive parts : bool -> bytes -> unchecked -> bytes -> Prop :=
| UP_unsigned call rest x d vc :
    enc types false (ep_call params) vc = Some call -> view types false HNone (ep_call params) vc = Some (x_data x, x_info x) ->
    x_data x = DCall d -> parts false (call ++ rest) (UxUnsigned d) rest
| UP_signed address signature extra call rest xa xs xe x d va vs ve vc :
    enc types false (ep_address params) va = Some address ->
    view types false HNone (ep_address params) va = Some (x_data xa, x_info xa) ->
    enc types false (ep_signature params) vs = Some signature ->
    view types false HNone (ep_signature params) vs = Some (x_data xs, x_info xs) ->
    enc types false (ep_extra params) ve = Some extra ->
    view types false HNone (ep_extra params) ve = Some (x_data xe, x_info xe) ->
    enc types false (ep_call params) vc = Some call ->
    view types false HNone (ep_call params) vc = Some (x_data x, x_info x) -> x_data x = DCall d ->
    parts true (address ++ signature ++ extra ++ call ++ rest) (UxSigned xa xs xe d) rest.
End Content.

(** ** The documented answer in every case *)

Section Answer.
Context {ME : Type}.
Variable c : chain ME.
Variable data : bytes.

(** Types decoded one after another. *)
Inductive in_turn : list N -> nat -> (list (ext pdata) * nat) + parser_err -> Prop :=
| IT_nil p : in_turn [] p (inl ([], p))
| IT_cons id l p x q xs q' : decode_at (ch_types c) data id p = (Ok x, q) -> in_turn l q (inl (xs, q')) ->
    in_turn (id :: l) p (inl (x :: xs, q'))
| IT_here id l p y q : decode_at (ch_types c) data id p = (Err y, q) -> in_turn (id :: l) p (inr y)
| IT_later id l p x q y : decode_at (ch_types c) data id p = (Ok x, q) -> in_turn l q (inr y) ->
    in_turn (id :: l) p (inr y).

Definition order (signed : bool) (p : extrinsic_params) : list N :=
  if signed then [ep_address p; ep_signature p; ep_extra p; ep_call p] else [ep_call p].

Inductive shape : list (ext pdata) -> unchecked -> Prop :=
| SH_unsigned x d : x_data x = DCall d -> shape [x] (UxUnsigned d)
| SH_signed a s e x d : x_data x = DCall d -> shape [a; s; e; x] (UxSigned a s e d).

Inductive unchecked_answer : outcome (unchecked_err ME) unchecked -> Prop :=
| UA_params x : ch_params c = inr x -> unchecked_answer (Err (UMetaStructure x))
| UA_no_compact p : ch_params c = inl p ->
    (forall n post, fits U32 n = true -> data <> compact_enc n ++ post) -> unchecked_answer (Err FormatNoCompact)
| UA_short p n post : ch_params c = inl p -> fits U32 n = true -> data = compact_enc n ++ post ->
    (N.of_nat (List.length post) < n)%N ->
    unchecked_answer (Err (UParsing (PBuffer (DataTooShort (List.length data) (n - N.of_nat (List.length post))))))
| UA_long p n post : ch_params c = inl p -> fits U32 n = true -> data = compact_enc n ++ post ->
    (n < N.of_nat (List.length post))%N ->
    unchecked_answer (Err (UParsing (SomeDataNotUsedBlob (List.length (compact_enc n) + N.to_nat n))))
| UA_empty p : ch_params c = inl p -> framed data [] ->
    unchecked_answer (Err (UParsing (PBuffer (DataTooShort (List.length data) 1))))
| UA_no_version p b rest x : ch_params c = inl p -> framed data (b :: rest) -> ch_version c = inr x ->
    unchecked_answer (Err (UMetaStructure x))
| UA_version p b rest v : ch_params c = inl p -> framed data (b :: rest) -> ch_version c = inl v ->
    (b mod 128 <> v)%N -> unchecked_answer (Err (VersionMismatch b v))
| UA_undecodable p b rest v y : ch_params c = inl p -> framed data (b :: rest) -> ch_version c = inl v ->
    (b mod 128 = v)%N ->
    in_turn (order (128 <=? b)%N p) (List.length data - List.length rest) (inr y) ->
    unchecked_answer (Err (UParsing y))
| UA_not_a_call p b rest v xs x q : ch_params c = inl p -> framed data (b :: rest) -> ch_version c = inl v ->
    (b mod 128 = v)%N ->
    in_turn (order (128 <=? b)%N p) (List.length data - List.length rest) (inl (xs ++ [x], q)) ->
    (forall d, x_data x <> DCall d) -> unchecked_answer (Err (UnexpectedCallTy (ep_call p)))
| UA_parsed p b rest v xs q u : ch_params c = inl p -> framed data (b :: rest) -> ch_version c = inl v ->
    (b mod 128 = v)%N ->
    in_turn (order (128 <=? b)%N p) (List.length data - List.length rest) (inl (xs, q)) ->
    shape xs u -> unchecked_answer (Ok u).
End Answer.
