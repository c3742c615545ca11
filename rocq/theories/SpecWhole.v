(** The answers of the parsers of transactions, storage entries and unchecked extrinsics, told
    with encodings only (C63): which value stands where, or which fault is the first. The types
    used from the model are those of the results; no function of the decoder is used. *)
From Verif Require Import Base Compact Types Sign Storage Unchecked Spec SpecFault ApiSign SpecSign SpecStorage SpecUnchecked Meta SpecMeta.
Local Open Scope list_scope.

(** ** Reading values one after another *)

Section Reading.
Variable types : list ty.
Variable data : bytes.

(** At [p] there is a value of type [id], to be shown as [x] (given what is known about its
    place, [h]), with the next value after it; or there is a fault. *)
Inductive reading (h : hint) (id : N) (p : nat) : (ext pdata * nat) + parser_err -> Prop :=
| R_value v bs x : enc types false id v = Some bs -> stands data bs p ->
    view types false h id v = Some (x_data x, x_info x) -> reading h id p (inl (x, (p + List.length bs)%nat))
| R_fault y : fault types data false id p y -> reading h id p (inr y).

(** Values one after another, up to the first fault. *)
Inductive readings : list (hint * N) -> nat -> (list (ext pdata) * nat) + parser_err -> Prop :=
| RS_nil p : readings [] p (inl ([], p))
| RS_value h id l p x q xs q' : reading h id p (inl (x, q)) -> readings l q (inl (xs, q')) ->
    readings ((h, id) :: l) p (inl (x :: xs, q'))
| RS_fault h id l p y : reading h id p (inr y) -> readings ((h, id) :: l) p (inr y)
| RS_later h id l p x q y : reading h id p (inl (x, q)) -> readings l q (inr y) -> readings ((h, id) :: l) p (inr y).

(** All of the data is one value. *)
Inductive whole_reading (id : N) : ext pdata + parser_err -> Prop :=
| W_value v x : enc types false id v = Some data -> view types false HNone id v = Some (x_data x, x_info x) ->
    whole_reading id (inl x)
| W_more v bs rest : enc types false id v = Some bs -> data = bs ++ rest -> rest <> [] ->
    whole_reading id (inr (SomeDataNotUsedBlob (List.length bs)))
| W_fault y : fault types data false id 0 y -> whole_reading id (inr y).
End Reading.

(** ** Signable transactions *)

Section Transaction.
Context {ME : Type}.
Variable c : chain ME.
Variable expected : option bytes.

(** The types of the extensions with what their identifiers say. *)
Definition extension_types_hinted (l : list ext_meta) : list (hint * N) :=
  map (fun x => (extension_hint (fst x), snd x)) (extension_sequence l).

(** Extensions from [start] to the end of the data. *)
Inductive extensions_told (data : bytes) (start : nat) : outcome (signable_err ME) (list (ext pdata)) -> Prop :=
| X_metadata x : ch_extensions c = inr x -> extensions_told data start (Err (MetaStructure x))
| X_fault l y : ch_extensions c = inl l -> readings (ch_types c) data (extension_types_hinted l) start (inr y) ->
    extensions_told data start (Err (Parsing y))
| X_unused l xs q : ch_extensions c = inl l -> readings (ch_types c) data (extension_types_hinted l) start (inl (xs, q)) ->
    q <> List.length data -> extensions_told data start (Err (SomeDataNotUsedExtensions q))
| X_no_version l xs x : ch_extensions c = inl l ->
    readings (ch_types c) data (extension_types_hinted l) start (inl (xs, List.length data)) ->
    ch_spec c = inr x -> extensions_told data start (Err (MetaStructure x))
| X_rejected l xs nv x : ch_extensions c = inl l ->
    readings (ch_types c) data (extension_types_hinted l) start (inl (xs, List.length data)) ->
    ch_spec c = inl nv -> judged xs (printed_spec_version nv) expected (inr x) -> extensions_told data start (Err x)
| X_accepted l xs nv : ch_extensions c = inl l ->
    readings (ch_types c) data (extension_types_hinted l) start (inl (xs, List.length data)) ->
    ch_spec c = inl nv -> judged (ME := ME) xs (printed_spec_version nv) expected (inl tt) ->
    extensions_told data start (Ok xs).

(** A call from [start], in data that go on; [stop] is where it is left. *)
Inductive call_begins (data : bytes) (start : nat) : outcome (signable_err ME) (psdata pdata * nat) -> Prop :=
| C_metadata x : ch_call c = inr x -> call_begins data start (Err (MetaStructure x))
| C_fault id y : ch_call c = inl id -> reading (ch_types c) data HNone id start (inr y) ->
    call_begins data start (Err (Parsing y))
| C_not_a_call id x q : ch_call c = inl id -> reading (ch_types c) data HNone id start (inl (x, q)) ->
    (forall d, x_data x <> DCall d) -> call_begins data start (Err (NotACall id))
| C_call id x q d : ch_call c = inl id -> reading (ch_types c) data HNone id start (inl (x, q)) ->
    x_data x = DCall d -> call_begins data start (Ok (d, q)).

(** A call that is all of the data from [start] on. *)
Inductive call_told (data : bytes) (start : nat) : psdata pdata + signable_err ME -> Prop :=
| CT_error x : call_begins data start (Err x) -> call_told data start (inr x)
| CT_unused d q : call_begins data start (Ok (d, q)) -> q <> List.length data ->
    call_told data start (inr (SomeDataNotUsedCall q (List.length data)))
| CT_call d : call_begins data start (Ok (d, List.length data)) -> call_told data start (inl d).

(** The length of the call, the call, the extensions. *)
Inductive transaction_told (data : bytes) : outcome (signable_err ME) (transaction_parsed ME) -> Prop :=
| T_cut : (forall n call rest, fits U32 n = true -> data = compact_enc n ++ call ++ rest -> N.of_nat (List.length call) <> n) ->
    transaction_told data (Err CutSignable)
| T_rejected n call rest x : fits U32 n = true -> data = compact_enc n ++ call ++ rest -> N.of_nat (List.length call) = n ->
    extensions_told data (List.length (compact_enc n ++ call)) (Err x) -> transaction_told data (Err x)
| T_parsed n call rest xs r : fits U32 n = true -> data = compact_enc n ++ call ++ rest -> N.of_nat (List.length call) = n ->
    extensions_told data (List.length (compact_enc n ++ call)) (Ok xs) ->
    call_told (compact_enc n ++ call) (List.length (compact_enc n)) r ->
    transaction_told data (Ok (TransactionParsed r xs)).

(** The call, the extensions. *)
Inductive transaction_unmarked_told (data : bytes) : outcome (signable_err ME) (psdata pdata * list (ext pdata)) -> Prop :=
| TU_call x : call_begins data 0 (Err x) -> transaction_unmarked_told data (Err x)
| TU_rejected d q x : call_begins data 0 (Ok (d, q)) -> extensions_told data q (Err x) ->
    transaction_unmarked_told data (Err x)
| TU_parsed d q xs : call_begins data 0 (Ok (d, q)) -> extensions_told data q (Ok xs) ->
    transaction_unmarked_told data (Ok (d, xs)).

(** The types of the call and of the extensions can be used. *)
Definition signable_usable : Prop :=
  (forall id, ch_call c = inl id -> usable (ch_types c) id) /\
  (forall l, ch_extensions c = inl l -> Forall (fun x => usable (ch_types c) (snd x)) (extension_sequence l)).
End Transaction.

(** ** Unchecked extrinsics *)

Section Unchecked.
Context {ME : Type}.
Variable c : chain ME.
Variable data : bytes.

(** The parts after the version byte [b]. *)
Definition part_types (b : N) (p : extrinsic_params) : list (hint * N) :=
  map (fun id => (HNone, id)) (order (128 <=? b)%N p).

Inductive unchecked_told : outcome (unchecked_err ME) unchecked -> Prop :=
| UT_params x : ch_params c = inr x -> unchecked_told (Err (UMetaStructure x))
| UT_no_compact p : ch_params c = inl p ->
    (forall n post, fits U32 n = true -> data <> compact_enc n ++ post) -> unchecked_told (Err FormatNoCompact)
| UT_short p n post : ch_params c = inl p -> fits U32 n = true -> data = compact_enc n ++ post ->
    (N.of_nat (List.length post) < n)%N ->
    unchecked_told (Err (UParsing (PBuffer (DataTooShort (List.length data) (n - N.of_nat (List.length post))))))
| UT_long p n post : ch_params c = inl p -> fits U32 n = true -> data = compact_enc n ++ post ->
    (n < N.of_nat (List.length post))%N ->
    unchecked_told (Err (UParsing (SomeDataNotUsedBlob (List.length (compact_enc n) + N.to_nat n))))
| UT_empty p : ch_params c = inl p -> framed data [] ->
    unchecked_told (Err (UParsing (PBuffer (DataTooShort (List.length data) 1))))
| UT_no_version p b rest x : ch_params c = inl p -> framed data (b :: rest) -> ch_version c = inr x ->
    unchecked_told (Err (UMetaStructure x))
| UT_version p b rest v : ch_params c = inl p -> framed data (b :: rest) -> ch_version c = inl v ->
    (b mod 128 <> v)%N -> unchecked_told (Err (VersionMismatch b v))
| UT_fault p b rest v y : ch_params c = inl p -> framed data (b :: rest) -> ch_version c = inl v -> (b mod 128 = v)%N ->
    readings (ch_types c) data (part_types b p) (List.length data - List.length rest) (inr y) ->
    unchecked_told (Err (UParsing y))
| UT_not_a_call p b rest v xs x q : ch_params c = inl p -> framed data (b :: rest) -> ch_version c = inl v ->
    (b mod 128 = v)%N ->
    readings (ch_types c) data (part_types b p) (List.length data - List.length rest) (inl (xs ++ [x], q)) ->
    (forall d, x_data x <> DCall d) -> unchecked_told (Err (UnexpectedCallTy (ep_call p)))
| UT_parsed p b rest v xs q u : ch_params c = inl p -> framed data (b :: rest) -> ch_version c = inl v ->
    (b mod 128 = v)%N ->
    readings (ch_types c) data (part_types b p) (List.length data - List.length rest) (inl (xs, q)) ->
    shape xs u -> unchecked_told (Ok u).

Definition params_usable : Prop :=
  forall p, ch_params c = inl p ->
    usable (ch_types c) (ep_address p) /\ usable (ch_types c) (ep_signature p) /\
    usable (ch_types c) (ep_extra p) /\ usable (ch_types c) (ep_call p).
End Unchecked.

(** ** Storage entries *)

Section StorageTold.
Variables blake2_128 twox_64 : bytes -> bytes.
Variable types : list ty.
Variable key : bytes.

(** What hasher [h] made of a key of type [id], from [p] on. *)
Inductive part_told (h : hasher) (id : N) (p : nat) : (key_part * nat) + storage_err -> Prop :=
| PT_hash k n l : opaque_kind h = Some (k, n) -> stands key l p -> List.length l = n ->
    part_told h id p (inl (KHash k l id, (p + n)%nat))
| PT_hash_short k n : opaque_kind h = Some (k, n) -> lacks key p (N.of_nat n) ->
    part_told h id p (inr (ParsingKey (PBuffer (DataTooShort p (N.of_nat n)))))
| PT_concat_short f n : concat_kind blake2_128 twox_64 h = Some (f, n) -> lacks key p (N.of_nat n) ->
    part_told h id p (inr (ParsingKey (PBuffer (DataTooShort p (N.of_nat n)))))
| PT_concat_fault f n y : concat_kind blake2_128 twox_64 h = Some (f, n) -> ~ lacks key p (N.of_nat n) ->
    fault types key false id (p + n) y -> part_told h id p (inr (ParsingKey y))
| PT_mismatch f n l v bs : concat_kind blake2_128 twox_64 h = Some (f, n) -> List.length l = n ->
    enc types false id v = Some bs -> stands key (l ++ bs) p -> l <> f bs -> part_told h id p (inr KeyPartHashMismatch)
| PT_concat f n v bs x : concat_kind blake2_128 twox_64 h = Some (f, n) -> List.length (f bs) = n ->
    enc types false id v = Some bs -> stands key (f bs ++ bs) p -> view types false HNone id v = Some (x_data x, x_info x) ->
    part_told h id p (inl (KParsed x, (p + n + List.length bs)%nat))
| PT_plain_fault y : h = Identity -> fault types key false id p y -> part_told h id p (inr (ParsingKey y))
| PT_plain x q : h = Identity -> reading types key HNone id p (inl (x, q)) -> part_told h id p (inl (KParsed x, q)).

Inductive parts_told : list (hasher * N) -> nat -> (list key_part * nat) + storage_err -> Prop :=
| PTS_nil p : parts_told [] p (inl ([], p))
| PTS_cons h id l p x q xs q' : part_told h id p (inl (x, q)) -> parts_told l q (inl (xs, q')) ->
    parts_told ((h, id) :: l) p (inl (x :: xs, q'))
| PTS_here h id l p y : part_told h id p (inr y) -> parts_told ((h, id) :: l) p (inr y)
| PTS_later h id l p x q y : part_told h id p (inl (x, q)) -> parts_told l q (inr y) -> parts_told ((h, id) :: l) p (inr y).

Inductive key_told (hashers : list hasher) (kt : N) (start : nat) : key_data + storage_err -> Prop :=
| KT_single h x : hashers = [h] -> part_told h kt start (inl (x, List.length key)) -> key_told hashers kt start (inl (KSingle x))
| KT_single_bad h y : hashers = [h] -> part_told h kt start (inr y) -> key_told hashers kt start (inr y)
| KT_single_unused h x q : hashers = [h] -> part_told h kt start (inl (x, q)) -> q <> List.length key ->
    key_told hashers kt start (inr KeyPartsUnused)
| KT_unresolved : List.length hashers <> 1%nat -> lookup types kt = None ->
    key_told hashers kt start (inr (ParsingKey (PRegistry (RInternal (TypeNotResolved kt)))))
| KT_not_tuple t : List.length hashers <> 1%nat -> lookup types kt = Some t -> (forall ids, t_def t <> TTuple ids) ->
    key_told hashers kt start (inr MultipleHashesNotATuple)
| KT_number t ids : List.length hashers <> 1%nat -> lookup types kt = Some t -> t_def t = TTuple ids ->
    List.length ids <> List.length hashers -> key_told hashers kt start (inr MultipleHashesNumberMismatch)
| KT_tuple t ids xs : List.length hashers <> 1%nat -> lookup types kt = Some t -> t_def t = TTuple ids ->
    List.length ids = List.length hashers -> parts_told (combine hashers ids) start (inl (xs, List.length key)) ->
    key_told hashers kt start (inl (KTuple xs (Info (docs_text (t_docs t)) (t_path t))))
| KT_tuple_bad t ids y : List.length hashers <> 1%nat -> lookup types kt = Some t -> t_def t = TTuple ids ->
    List.length ids = List.length hashers -> parts_told (combine hashers ids) start (inr y) ->
    key_told hashers kt start (inr y)
| KT_tuple_unused t ids xs q : List.length hashers <> 1%nat -> lookup types kt = Some t -> t_def t = TTuple ids ->
    List.length ids = List.length hashers -> parts_told (combine hashers ids) start (inl (xs, q)) ->
    q <> List.length key -> key_told hashers kt start (inr KeyPartsUnused).

Inductive entry_told (value : bytes) (entry : entry_meta) : outcome storage_err storage -> Prop :=
| ET_short : (List.length key < 32)%nat -> entry_told value entry (Err KeyShorterThanPrefix)
| ET_exceeds vt : (32 < List.length key)%nat -> en_ty entry = EPlain vt -> entry_told value entry (Err PlainKeyExceedsPrefix)
| ET_plain_bad vt y : List.length key = 32%nat -> en_ty entry = EPlain vt -> whole_reading types value vt (inr y) ->
    entry_told value entry (Err (ParsingValue y))
| ET_plain vt x : List.length key = 32%nat -> en_ty entry = EPlain vt -> whole_reading types value vt (inl x) ->
    entry_told value entry (Ok (Storage KPlain x (docs_text (en_docs entry))))
| ET_key_bad hs kt vt y : (32 <= List.length key)%nat -> en_ty entry = EMap hs kt vt -> key_told hs kt 32 (inr y) ->
    entry_told value entry (Err y)
| ET_value_bad hs kt vt k y : (32 <= List.length key)%nat -> en_ty entry = EMap hs kt vt -> key_told hs kt 32 (inl k) ->
    whole_reading types value vt (inr y) -> entry_told value entry (Err (ParsingValue y))
| ET_map hs kt vt k x : (32 <= List.length key)%nat -> en_ty entry = EMap hs kt vt -> key_told hs kt 32 (inl k) ->
    whole_reading types value vt (inl x) -> entry_told value entry (Ok (Storage k x (docs_text (en_docs entry)))).

(** The types of the value, and of the keys that are in the key, can be used. *)
Definition key_usable (hs : list hasher) (kt : N) : Prop :=
  (forall h, hs = [h] -> opaque_kind h = None -> usable types kt) /\
  (forall t ids h id, lookup types kt = Some t -> t_def t = TTuple ids -> In (h, id) (combine hs ids) -> opaque_kind h = None ->
     usable types id).
Definition entry_usable (entry : entry_meta) : Prop :=
  match en_ty entry with
  | EPlain vt => usable types vt
  | EMap hs kt vt => usable types vt /\ key_usable hs kt
  end.
End StorageTold.

(** ** The runtime version in the metadata *)

Inductive version_told (types : list ty) (pallets : list pallet) : spec_name_version + version_err -> Prop :=
| VT_no_system : ~ In "System"%string (map pl_name pallets) -> version_told types pallets (inr NoSystemPallet)
| VT_no_constant p : system_pallet pallets p -> ~ In "Version"%string (map k_name (pl_constants p)) ->
    version_told types pallets (inr NoVersionInConstants)
| VT_fault p value id y : system_pallet pallets p -> version_in p value id -> whole_reading types value id (inr y) ->
    version_told types pallets (inr RuntimeVersionNotDecodeable)
| VT_format p value id x : system_pallet pallets p -> version_in p value id -> whole_reading types value id (inl x) ->
    (forall l, x_data x <> DComposite l) -> version_told types pallets (inr UnexpectedRuntimeVersionFormat)
| VT_fields p value id x l r : system_pallet pallets p -> version_in p value id -> whole_reading types value id (inl x) ->
    x_data x = DComposite l -> fields_answer l r -> version_told types pallets r.

(** The type of the constant can be used; its value is made of bytes. *)
Definition version_usable (types : list ty) (pallets : list pallet) : Prop :=
  forall p value id, system_pallet pallets p -> version_in p value id -> usable types id /\ is_bytes value.
