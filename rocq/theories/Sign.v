(** Signable transactions: /repo/src/lib.rs (`MarkedData`, `parse_transaction*`),
    /repo/src/decoding_sci.rs:166-226, /repo/src/decoding_sci_ext.rs, and the metadata
    interface of /repo/src/traits.rs. No proofs here. *)
From Coq Require Import DecimalString.
From Verif Require Import Base Compact Types Indicators Decode.
Local Open Scope string_scope.
Local Open Scope list_scope.

(** `to_string()` of unsigned integers. *)
(** decoding_sci_ext.rs:287-300; traits.rs:399-447. *)
Definition dec_string (n : N) : string := NilEmpty.string_of_uint (N.to_uint n).

(** traits.rs:117-120 `SpecNameVersion` (spec name as UTF-8 bytes). *)
Record spec_name_version := SpecNameVersion { printed_spec_version : string; spec_name : bytes }.

(** traits.rs:75-79 `SignedExtensionMetadata`. *)
Record ext_meta := ExtMeta { em_identifier : string; em_ty : N; em_additional : N }.

(** traits.rs:65-70 `ExtrinsicTypeParams`. *)
Record extrinsic_params := ExtrinsicParams {
  ep_address : N; ep_call : N; ep_signature : N; ep_extra : N }.

(** traits.rs:47-54 `AsMetadata`, `AsCompleteMetadata`: the answers of the methods for
    one metadata value. [ME] is `MetaStructureError`. *)
Record metadata (E ME : Type) := Metadata {
  m_types : registry E;
  m_spec_name_version : spec_name_version + ME;
  m_call_ty : N + ME;
  m_signed_extensions : list ext_meta + ME;
  m_extrinsic_type_params : extrinsic_params + ME;
  m_extrinsic_version : N + ME
}.
Arguments m_types {E ME} m.
Arguments m_spec_name_version {E ME} m.
Arguments m_call_ty {E ME} m.
Arguments m_signed_extensions {E ME} m.
Arguments m_extrinsic_type_params {E ME} m.
Arguments m_extrinsic_version {E ME} m.

(** error.rs:215-222 `ExtensionsError`. *)
Inductive ext_err :=
| BlockHashTwice | EraTwice | GenesisHashTwice | NoGenesisHash | NoSpecVersion | SpecVersionTwice.

(** error.rs:20-46 `SignableError`. *)
Inductive signable_err (ME : Type) :=
| CutSignable
| ExtensionsList (x : ext_err)
| ImmortalHashMismatch
| MetaStructure (x : ME)
| NotACall (id : N)
| Parsing (x : parser_err)
| SomeDataNotUsedCall (from to : nat)
| SomeDataNotUsedExtensions (from : nat)
| WrongGenesisHash (as_decoded expected : bytes)
| WrongSpecVersion (as_decoded in_metadata : string).
Arguments CutSignable {ME}.
Arguments ExtensionsList {ME} x.
Arguments ImmortalHashMismatch {ME}.
Arguments MetaStructure {ME} x.
Arguments NotACall {ME} id.
Arguments Parsing {ME} x.
Arguments SomeDataNotUsedCall {ME} from to.
Arguments SomeDataNotUsedExtensions {ME} from.
Arguments WrongGenesisHash {ME} as_decoded expected.
Arguments WrongSpecVersion {ME} as_decoded in_metadata.

(** A local `let mut position = p0;` used by [m]: result with the final local position;
    the position of the surrounding computation is not affected. *)
(** E.g. decoding_sci.rs:166-188, decoding_sci_ext.rs:37-58. *)
Definition at_local {E X A} (p0 : nat) (m : M E X A) : M E X (A * nat) :=
  fun p e =>
    match m p0 e with
    | (Ok a, q, e') => (Ok (a, q), p, e')
    | (Err x, _, e') => (Err x, p, e')
    | (Panic, _, e') => (Panic, p, e')
    | (OutOfFuel, _, e') => (OutOfFuel, p, e')
    end.

(** lib.rs:560-571 `MarkedData` (data is kept by the caller). *)
Record marked := Marked { call_start : nat; extensions_start : nat }.

Section Sign.
Context {E ME : Type}.

(** lib.rs:580-595 `MarkedData::mark`. *)
Definition mark (b : buffer E) : M E (signable_err ME) marked :=
  do x <- map_err (fun _ => CutSignable) (at_local 0 (get_compact U32 b));
  let '(call_length, call_start) := x in
  do res <- catch (read_slice b call_start call_length);
  match res with
  | inl _ => ret (Marked call_start (call_start + N.to_nat call_length)%nat)
  | inr _ => fail CutSignable
  end.

(** decoding_sci.rs:200-226 `decode_as_call_unmarked`. *)
Definition decode_as_call_unmarked (b : buffer E) (m : metadata E ME)
  : M E (signable_err ME) (psdata pdata) :=
  do call_ty <- map_err MetaStructure (lift (m_call_ty m));
  do x <- map_err Parsing (decode_with_type b (m_types m) (Symbol call_ty) propagated_new);
  match x_data x with
  | DCall call => ret call
  | _ => fail (NotACall call_ty)
  end.

(** lib.rs:609-613 `MarkedData::data_no_extensions`; [None] is its panic (`expect` on a
    failed `limit_length`).  The other accessors, lib.rs:598-623, are the fields. *)
Definition data_no_extensions (b : buffer E) (mk : marked) : option (buffer E) :=
  limit_length b (extensions_start mk).

(** decoding_sci.rs:166-188 `decode_as_call`. *)
Definition decode_as_call (b : buffer E) (mk : marked) (m : metadata E ME)
  : M E (signable_err ME) (psdata pdata) :=
  match data_no_extensions b mk with
  | None => panic
  | Some data =>
      do x <- at_local (call_start mk) (decode_as_call_unmarked data m);
      let '(call, position) := x in
      if Nat.eqb position (extensions_start mk) then ret call
      else fail (SomeDataNotUsedCall position (extensions_start mk))
  end.

(** ** decoding_sci_ext.rs *)

(** decoding_sci_ext.rs:192-197 `CollectedExt`. *)
Record collected := Collected {
  co_era : option era;
  co_genesis : option bytes;
  co_block : option bytes;
  co_version : option string
}.

(** decoding_sci_ext.rs:201-208 `CollectedExt::new`. *)
Definition collected_new : collected := Collected None None None None.

(** decoding_sci_ext.rs:211-241 `CollectedExt::update`. *)
Definition collected_update (c : collected) (d : pdata) : collected + ext_err :=
  match d with
  | DEra e =>
      match co_era c with
      | Some _ => inr EraTwice
      | None => inl (Collected (Some e) (co_genesis c) (co_block c) (co_version c))
      end
  | DHash ShGenesis h =>
      match co_genesis c with
      | Some _ => inr GenesisHashTwice
      | None => inl (Collected (co_era c) (Some h) (co_block c) (co_version c))
      end
  | DHash ShBlock h =>
      match co_block c with
      | Some _ => inr BlockHashTwice
      | None => inl (Collected (co_era c) (co_genesis c) (Some h) (co_version c))
      end
  | DUInt _ value SuSpecVersion =>
      match co_version c with
      | Some _ => inr SpecVersionTwice
      | None => inl (Collected (co_era c) (co_genesis c) (co_block c) (Some (dec_string value)))
      end
  | _ => inl c
  end.

(** decoding_sci_ext.rs:137-146: the loop over extensions; single-field structs are looked
    into, other structs are skipped. *)
Fixpoint collect_loop (c : collected) (l : list (ext pdata)) : collected + ext_err :=
  match l with
  | [] => inl c
  | x :: rest =>
      let step :=
        match x_data x with
        | DComposite [f] => collected_update c (x_data (fd_data f))
        | DComposite _ => inl c
        | d => collected_update c d
        end in
      match step with
      | inl c' => collect_loop c' rest
      | inr e => inr e
      end
  end.

(** `!=` on hashes, decoding_sci_ext.rs:165 and 182. *)
Fixpoint bytes_eqb (a b : bytes) : bool :=
  match a, b with
  | [], [] => true
  | x :: a', y :: b' => (x =? y)%N && bytes_eqb a' b'
  | _, _ => false
  end.

(** decoding_sci_ext.rs:131-189 `check_extensions`. *)
Definition check_extensions (l : list (ext pdata)) (version : string)
    (optional_genesis_hash : option bytes) : unit + signable_err ME :=
  match collect_loop collected_new l with
  | inr e => inr (ExtensionsList e)
  | inl c =>
      match co_version c with
      | None => inr (ExtensionsList NoSpecVersion)
      | Some v =>
          if negb (String.eqb v version) then inr (WrongSpecVersion v version)
          else
            match co_genesis c with
            | None => inr (ExtensionsList NoGenesisHash)
            | Some g =>
                let wrong :=
                  match optional_genesis_hash with
                  | Some g' => if bytes_eqb g g' then None else Some g'
                  | None => None
                  end in
                match wrong with
                | Some g' => inr (WrongGenesisHash g g')
                | None =>
                    match co_era c, co_block c with
                    | Some Immortal, Some bl =>
                        if bytes_eqb g bl then inl tt else inr ImmortalHashMismatch
                    | _, _ => inl tt
                    end
                end
            end
      end
  end.

(** One pass over the extensions: decoding_sci_ext.rs:91-100 and 101-110. *)
Fixpoint extensions_loop (b : buffer E) (r : registry E) (l : list (string * N))
  : M E parser_err (list (ext pdata)) :=
  match l with
  | [] => ret []
  | (identifier, id) :: rest =>
      do x <- decode_with_type b r (Symbol id) (from_ext_meta identifier);
      do tl <- extensions_loop b r rest;
      ret (x :: tl)
  end.

(** decoding_sci_ext.rs:74-124 `decode_extensions_unmarked`. The two passes are one loop
    over the concatenated list of (identifier, type). *)
Definition extension_types (l : list ext_meta) : list (string * N) :=
  map (fun m => (em_identifier m, em_ty m)) l ++
  map (fun m => (em_identifier m, em_additional m)) l.

(** decoding_sci_ext.rs:74-124 `decode_extensions_unmarked`. *)
Definition decode_extensions_unmarked (b : buffer E) (m : metadata E ME)
    (optional_genesis_hash : option bytes) : M E (signable_err ME) (list (ext pdata)) :=
  do signed_extensions <- map_err MetaStructure (lift (m_signed_extensions m));
  do extensions <- map_err Parsing
       (extensions_loop b (m_types m) (extension_types signed_extensions));
  do position <- get_pos;
  if negb (Nat.eqb position (total_len b)) then fail (SomeDataNotUsedExtensions position)
  else
    do nv <- map_err MetaStructure (lift (m_spec_name_version m));
    lift (check_extensions extensions (printed_spec_version nv) optional_genesis_hash) ;;
    ret extensions.

(** decoding_sci_ext.rs:37-58 `decode_extensions`. *)
Definition decode_extensions (b : buffer E) (mk : marked) (m : metadata E ME)
    (g : option bytes) : M E (signable_err ME) (list (ext pdata)) :=
  do x <- at_local (extensions_start mk) (decode_extensions_unmarked b m g);
  ret (fst x).

(** lib.rs:630-637 `TransactionParsed`. *)
Record transaction_parsed := TransactionParsed {
  tp_call : psdata pdata + signable_err ME;
  tp_extensions : list (ext pdata)
}.

(** lib.rs:675-702 `parse_transaction`. *)
Definition parse_transaction (b : buffer E) (m : metadata E ME) (g : option bytes)
  : M E (signable_err ME) transaction_parsed :=
  do mk <- mark b;
  do extensions <- decode_extensions b mk m g;
  do call_result <- catch (decode_as_call b mk m);
  ret (TransactionParsed call_result extensions).

(** lib.rs:738-765 `parse_transaction_unmarked`. *)
Definition parse_transaction_unmarked (b : buffer E) (m : metadata E ME) (g : option bytes)
  : M E (signable_err ME) (psdata pdata * list (ext pdata)) :=
  do x <- at_local 0
     (do call <- decode_as_call_unmarked b m;
      do extensions <- decode_extensions_unmarked b m g;
      ret (call, extensions));
  ret (fst x).

End Sign.
Arguments transaction_parsed ME : clear implicits.
