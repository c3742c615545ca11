(** What is required of the extensions of a signable transaction (C23, C24). *)
From Verif Require Import Base Compact Types Indicators Decode Sign Spec Api ApiSign.
Local Open Scope list_scope.

(** ** What the rules look at *)

Inductive finding := FVersion (v : N) | FGenesis (h : bytes) | FBlock (h : bytes) | FEra (x : era).

Definition finding_in (d : pdata) : option finding :=
  match d with
  | DUInt _ v SuSpecVersion => Some (FVersion v)
  | DHash ShGenesis h => Some (FGenesis h)
  | DHash ShBlock h => Some (FBlock h)
  | DEra x => Some (FEra x)
  | _ => None
  end.

(** An extension is looked at directly, or as the only field of a struct. *)
Definition finding_of (x : ext pdata) : option finding :=
  match x_data x with
  | DComposite [f] => finding_in (x_data (fd_data f))
  | d => finding_in d
  end.

Definition findings (l : list (ext pdata)) : list finding :=
  flat_map (fun x => match finding_of x with Some f => [f] | None => [] end) l.

Definition versions (l : list (ext pdata)) : list N :=
  flat_map (fun f => match f with FVersion v => [v] | _ => [] end) (findings l).
Definition genesis_hashes (l : list (ext pdata)) : list bytes :=
  flat_map (fun f => match f with FGenesis h => [h] | _ => [] end) (findings l).
Definition block_hashes (l : list (ext pdata)) : list bytes :=
  flat_map (fun f => match f with FBlock h => [h] | _ => [] end) (findings l).
Definition eras (l : list (ext pdata)) : list era :=
  flat_map (fun f => match f with FEra x => [x] | _ => [] end) (findings l).

(** Nothing is there twice. *)
Definition no_repetition (l : list (ext pdata)) : Prop :=
  (List.length (versions l) <= 1 /\ List.length (genesis_hashes l) <= 1 /\
   List.length (block_hashes l) <= 1 /\ List.length (eras l) <= 1)%nat.

Definition repetition_error (f : finding) : ext_err :=
  match f with
  | FVersion _ => SpecVersionTwice
  | FGenesis _ => GenesisHashTwice
  | FBlock _ => BlockHashTwice
  | FEra _ => EraTwice
  end.

(** ** The rules, in the order in which they are checked *)

Definition genesis_matches (expected : option bytes) (h : bytes) : Prop :=
  match expected with Some h' => h = h' | None => True end.

(** An immortal era goes with the genesis hash as the block hash, if there is one. *)
Definition immortal_rule (l : list (ext pdata)) (g : bytes) : Prop :=
  eras l = [Immortal] -> forall h, block_hashes l = [h] -> h = g.

Section Judge.
Context {ME : Type}.
Variable l : list (ext pdata).
Variable spec_version : string.
Variable expected : option bytes.

(** [judged r]: [r] is the documented answer for the decoded extensions [l]. *)
Inductive judged : unit + signable_err ME -> Prop :=
| J_repetition pre x post f : l = pre ++ x :: post -> no_repetition pre -> finding_of x = Some f ->
    ~ no_repetition (pre ++ [x]) -> judged (inr (ExtensionsList (repetition_error f)))
| J_no_version : no_repetition l -> versions l = [] -> judged (inr (ExtensionsList NoSpecVersion))
| J_wrong_version v : no_repetition l -> versions l = [v] -> dec_string v <> spec_version ->
    judged (inr (WrongSpecVersion (dec_string v) spec_version))
| J_no_genesis : no_repetition l -> versions l <> [] ->
    (forall v, versions l = [v] -> dec_string v = spec_version) -> genesis_hashes l = [] ->
    judged (inr (ExtensionsList NoGenesisHash))
| J_wrong_genesis v g g' : no_repetition l -> versions l = [v] -> dec_string v = spec_version ->
    genesis_hashes l = [g] -> expected = Some g' -> g <> g' -> judged (inr (WrongGenesisHash g g'))
| J_immortal v g : no_repetition l -> versions l = [v] -> dec_string v = spec_version ->
    genesis_hashes l = [g] -> genesis_matches expected g -> ~ immortal_rule l g ->
    judged (inr ImmortalHashMismatch)
| J_accepted v g : no_repetition l -> versions l = [v] -> dec_string v = spec_version ->
    genesis_hashes l = [g] -> genesis_matches expected g -> immortal_rule l g -> judged (inl tt).
End Judge.

(** ** Decoding the extensions *)

(** First what is signed in the extrinsic itself, then what is signed in addition. *)
Definition extension_sequence (l : list ext_meta) : list (string * N) :=
  map (fun m => (em_identifier m, em_ty m)) l ++ map (fun m => (em_identifier m, em_additional m)) l.

(** What the identifier of an extension says about its contents. *)
Definition extension_table : list (string * hint) :=
  [("CheckSpecVersion", HCheckSpecVersion); ("CheckTxVersion", HCheckTxVersion); ("CheckGenesis", HCheckGenesis);
   ("CheckMortality", HCheckMortality); ("CheckNonce", HCheckNonce);
   ("ChargeAssetTxPayment", HChargeAssetTxPayment); ("ChargeTransactionPayment", HChargeTransactionPayment)]%string.
Definition extension_hint (identifier : string) : hint :=
  match find (fun x => String.eqb (fst x) identifier) extension_table with Some (_, h) => h | None => HNone end.

(** The types are decoded one after another from [p] to [q]. *)
Inductive read_in_turn (types : list ty) (data : bytes) : list (string * N) -> nat -> list (ext pdata) -> nat -> Prop :=
| RT_nil p : read_in_turn types data [] p [] p
| RT_cons i id l p x p' xs q : decode_hinted (extension_hint i) types data id p = (Ok x, p') ->
    read_in_turn types data l p' xs q -> read_in_turn types data ((i, id) :: l) p (x :: xs) q.

Section Outcome.
Context {ME : Type}.
Variable c : chain ME.
Variable expected : option bytes.
Variable data : bytes.
Variable start : nat.

(** [extension_outcome o]: [o] is the documented answer for the extensions in [data] from [start]. *)
Inductive extension_outcome : outcome (signable_err ME) (list (ext pdata)) -> Prop :=
| EO_metadata x : ch_extensions c = inr x -> extension_outcome (Err (MetaStructure x))
| EO_undecodable l l1 i id l2 xs p x q : ch_extensions c = inl l -> extension_sequence l = l1 ++ (i, id) :: l2 ->
    read_in_turn (ch_types c) data l1 start xs p ->
    decode_hinted (extension_hint i) (ch_types c) data id p = (Err x, q) ->
    extension_outcome (Err (Parsing x))
| EO_unused l xs q : ch_extensions c = inl l -> read_in_turn (ch_types c) data (extension_sequence l) start xs q ->
    q <> List.length data -> extension_outcome (Err (SomeDataNotUsedExtensions q))
| EO_no_version l xs x : ch_extensions c = inl l ->
    read_in_turn (ch_types c) data (extension_sequence l) start xs (List.length data) ->
    ch_spec c = inr x -> extension_outcome (Err (MetaStructure x))
| EO_rejected l xs nv x : ch_extensions c = inl l ->
    read_in_turn (ch_types c) data (extension_sequence l) start xs (List.length data) ->
    ch_spec c = inl nv -> judged xs (printed_spec_version nv) expected (inr x) -> extension_outcome (Err x)
| EO_accepted l xs nv : ch_extensions c = inl l ->
    read_in_turn (ch_types c) data (extension_sequence l) start xs (List.length data) ->
    ch_spec c = inl nv -> judged (ME := ME) xs (printed_spec_version nv) expected (inl tt) -> extension_outcome (Ok xs).

(** The conclusion of C23 for accepted extensions. *)
Definition extensions_match (xs : list (ext pdata)) : Prop :=
  exists l nv v g, ch_extensions c = inl l /\ ch_spec c = inl nv /\
  read_in_turn (ch_types c) data (extension_sequence l) start xs (List.length data) /\
  versions xs = [v] /\ dec_string v = printed_spec_version nv /\
  genesis_hashes xs = [g] /\ genesis_matches expected g /\
  (List.length (eras xs) <= 1)%nat /\ (List.length (block_hashes xs) <= 1)%nat /\
  (eras xs = [Immortal] -> forall h, block_hashes xs = [h] -> h = g).
End Outcome.

(** ** Positions in errors *)

Definition move_buf (k : nat) (x : buf_err) : buf_err :=
  match x with
  | BExternal c => BExternal c
  | DataTooShort p n => DataTooShort (p + k) n
  | OutOfRange p l => OutOfRange (p + k) (l + k)
  end.

Definition move_err (k : nat) (x : parser_err) : parser_err :=
  match x with
  | PBuffer y => PBuffer (move_buf k y)
  | PRegistry y => PRegistry y
  | NoCompact p => NoCompact (p + k)
  | SomeDataNotUsedBlob p => SomeDataNotUsedBlob (p + k)
  | TypeFailure p s => TypeFailure (p + k) s
  | UnexpectedEnumVariant p => UnexpectedEnumVariant (p + k)
  end.

Definition move_signable {ME} (k : nat) (x : signable_err ME) : signable_err ME :=
  match x with
  | Parsing y => Parsing (move_err k y)
  | SomeDataNotUsedExtensions p => SomeDataNotUsedExtensions (p + k)
  | SomeDataNotUsedCall p q => SomeDataNotUsedCall (p + k) (q + k)
  | y => y
  end.

Definition move_outcome {ME A} (k : nat) (o : outcome (signable_err ME) A) : outcome (signable_err ME) A :=
  match o with Err x => Err (move_signable k x) | y => y end.

(** ** Calls *)

(** The value at [pos] is an enum of pallets by type [id] (path ending in Call or
    RuntimeCall), the chosen pallet has one field, again an enum of calls, and the names in
    [d] are those of the pallet and the call with the two index bytes in the data. *)
Definition pallet_call (types : list ty) (data : bytes) (id : N) (pos : nat) (d : psdata pdata) : Prop :=
  exists t pallets pallet f inner calls call i j,
    lookup types id = Some t /\ classify t = SpItem ItCall /\ t_def t = TVariant pallets /\
    by_index pallets i = Some pallet /\ v_fields pallet = [f] /\
    lookup types (f_ty f) = Some inner /\ classify inner = SpItem ItCall /\ t_def inner = TVariant calls /\
    by_index calls j = Some call /\ slice data pos 2 = [i; j] /\
    ps_pallet_name d = v_name pallet /\ ps_variant_name d = v_name call /\
    map fd_name (ps_fields d) = map f_name (v_fields call).

Section CallOutcome.
Context {ME : Type}.
Variable c : chain ME.
Variable data : bytes.
Variables start stop : nat.

(** [call_outcome o]: [o] is the documented answer for the call in the bytes from [start]
    to [stop]; bytes from [stop] on are not looked at. *)
Inductive call_outcome : outcome (signable_err ME) (psdata pdata) -> Prop :=
| CO_metadata x : ch_call c = inr x -> call_outcome (Err (MetaStructure x))
| CO_undecodable id x q : ch_call c = inl id ->
    decode_at (ch_types c) (firstn stop data) id start = (Err x, q) -> call_outcome (Err (Parsing x))
| CO_not_a_call id x q : ch_call c = inl id ->
    decode_at (ch_types c) (firstn stop data) id start = (Ok x, q) ->
    (forall d, x_data x <> DCall d) -> call_outcome (Err (NotACall id))
| CO_unused id x q d : ch_call c = inl id ->
    decode_at (ch_types c) (firstn stop data) id start = (Ok x, q) -> x_data x = DCall d ->
    q <> stop -> call_outcome (Err (SomeDataNotUsedCall q stop))
| CO_call id x d : ch_call c = inl id ->
    decode_at (ch_types c) (firstn stop data) id start = (Ok x, stop) -> x_data x = DCall d ->
    call_outcome (Ok d).
End CallOutcome.
