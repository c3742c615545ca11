(** Calls with the usual kinds of arguments, other calls among them (C83): the bytes a wallet puts
    together and the lines that are to be read on the screen.  Only definitions; nothing of the
    decoder is used. *)
From Verif Require Import Base Compact Types Indicators Sign Balance Cards Spec SpecCards ApiSign SpecTransfer SpecAccount.
Local Open Scope string_scope.
Local Open Scope list_scope.

(** An account; a hash; an amount of money; a number; a truth value; bytes, any number of them or a fixed number; a variant of an enum, alone or
    with one value; a struct; several values of one type; a call, by the indices and the names of the
    pallet and of the call; a variant of an enum with named values; a value in a struct that has only this
    one, without name; a variant of an enum with several values without names; a tuple; a key or a signature; a ratio, in parts of the whole (less than the whole: packed ratios beyond
    it are shown as the whole); a number
    in a struct that has only this one, packed.  [packed]: amounts and numbers may be compact. *)
Inductive arg :=
| Account (who : bytes)
| Hash (h : bytes)
| Money (packed : bool) (n : N)
| Number (packed : bool) (w : uwidth) (n : N)
| Truth (b : bool)
| Bytes (l : bytes)
| Fixed (l : bytes)
| Choice (n : N) (name : string)
| Given (n : N) (name : string) (a : arg)
| Struct (l : list (string * arg))
| Several (l : list arg)
| Order (i j : N) (pallet name : string) (l : list (string * arg))
| Made (n : N) (name : string) (l : list (string * arg))
| Inside (a : arg)
| Numbered (n : N) (name : string) (l : list arg)
| Tuple (l : list arg)
| Raw (k : fixed_kind) (l : bytes)
| Part (packed : bool) (k : per_kind) (n : N)
| Packed (w : uwidth) (n : N).

(** An address as it is mostly given, and optional values. *)
Definition address (who : bytes) : arg := Given 0 "Id" (Account who).
Definition none : arg := Choice 0 "None".
Definition some (a : arg) : arg := Given 1 "Some" a.

(** ** Types *)

Section Types.
Variable types : list ty.

(** Accounts, enums, calls, tuples, and structs with several fields. *)
Definition list_element (id : N) : Prop :=
  recognised types id (SpRaw KAccountId32) \/ (exists l, ordinary types id (TVariant l)) \/
  (exists t l, lookup types id = Some t /\ classify t = SpItem ItCall /\ t_def t = TVariant l) \/
  (exists f g fs, ordinary types id (TComposite (f :: g :: fs))) \/ exists ids, ordinary types id (TTuple ids).

(** [a] can be given where a value of the type [id] is expected; [label]: what the name and the type of the
    field say, that is, whether it is an amount of money. *)
Fixpoint allowed (label : hint) (id : N) (a : arg) {struct a} : Prop :=
  let named := fix named (fs : list field) (l : list (string * arg)) {struct l} : Prop :=
    match fs, l with
    | [], [] => True
    | f :: fs', (name, a) :: l' => f_name f = Some name /\ allowed (field_label f) (f_ty f) a /\ named fs' l'
    | _, _ => False
    end in
  let unnamed := fix unnamed (fs : list field) (l : list arg) {struct l} : Prop :=
    match fs, l with
    | [], [] => True
    | f :: fs', a :: l' => f_name f = None /\ allowed (field_label f) (f_ty f) a /\ unnamed fs' l'
    | _, _ => False
    end in
  let each := fix each (ids : list N) (l : list arg) {struct l} : Prop :=
    match ids, l with
    | [], [] => True
    | i :: ids', a :: l' => (exists t, lookup types i = Some t /\ allowed (path_label t) i a) /\ each ids' l'
    | _, _ => False
    end in
  match a with
  | Account who => recognised types id (SpRaw KAccountId32) /\ is_bytes who /\ List.length who = 32%nat
  | Hash h => label = HNone /\ recognised types id SpHash /\ is_bytes h /\ List.length h = 32%nat
  | Money packed n => label = HFieldBalance /\ (if packed then compact_number types U128 id else number_type types U128 id) /\ (n < 2 ^ 128)%N
  | Number packed w n => label = HNone /\ (if packed then compact_number types w id else number_type types w id) /\ (n < 2 ^ (8 * N.of_nat (usize w)))%N
  | Truth b => ordinary types id (TPrimitive PrBool)
  | Bytes l => exists el, ordinary types id (TSequence el) /\ number_type types U8 el /\ is_bytes l /\ (N.of_nat (List.length l) < 2 ^ 32)%N
  | Fixed l => exists el, ordinary types id (TArray (N.of_nat (List.length l)) el) /\ number_type types U8 el /\ is_bytes l
  | Choice n name => exists vs, ordinary types id (TVariant vs) /\ has_variant vs n name [] /\ (n < 256)%N
  | Given n name a => exists vs f, ordinary types id (TVariant vs) /\ has_variant vs n name [f] /\ (n < 256)%N /\ f_name f = None /\
      allowed (field_label f) (f_ty f) a
  | Struct l => label = HNone /\ exists fs, ordinary types id (TComposite fs) /\ (2 <= List.length fs)%nat /\ named fs l
  | Several l => exists el, ordinary types id (TSequence el) /\ list_element el /\ (N.of_nat (List.length l) < 2 ^ 32)%N /\
      (fix all (l : list arg) : Prop := match l with [] => True | a :: l' => allowed HNone el a /\ all l' end) l
  | Order i j pallet name l =>
      exists t pallets p f inner items item,
        lookup types id = Some t /\ classify t = SpItem ItCall /\ t_def t = TVariant pallets /\
        by_index pallets i = Some p /\ v_name p = pallet /\ v_fields p = [f] /\
        lookup types (f_ty f) = Some inner /\ classify inner = SpItem ItCall /\ t_def inner = TVariant items /\
        by_index items j = Some item /\ v_name item = name /\ named (v_fields item) l /\ (i < 256)%N /\ (j < 256)%N
  | Made n name l => exists vs fs, ordinary types id (TVariant vs) /\ has_variant vs n name fs /\ (n < 256)%N /\ l <> [] /\ named fs l
  | Inside a => exists f, ordinary types id (TComposite [f]) /\ f_name f = None /\
      allowed (match label with HNone => field_label f | _ => label end) (f_ty f) a
  | Numbered n name l => exists vs fs, ordinary types id (TVariant vs) /\ has_variant vs n name fs /\ (n < 256)%N /\ (2 <= List.length l)%nat /\ unnamed fs l
  | Tuple l => label = HNone /\ exists ids, ordinary types id (TTuple ids) /\ l <> [] /\ each ids l
  | Raw k l => recognised types id (SpRaw k) /\ k <> KAccountId32 /\ is_bytes l /\ List.length l = raw_len k
  | Part packed k n => (if packed then exists j, ordinary types id (TCompact j) /\ recognised types j (SpPer k) else recognised types id (SpPer k)) /\ (n < whole k)%N
  | Packed w n => label = HNone /\ (exists j, ordinary types id (TCompact j) /\ wrapped_number types w j) /\ (n < 2 ^ (8 * N.of_nat (usize w)))%N
  end.
End Types.

(** [b] is [a] with other accounts, hashes, amounts, numbers, truth values and bytes, and with any number
    of values in each vector, each of them as one of those in [a]. *)
Fixpoint like (a b : arg) {struct a} : Prop :=
  let all := fix all (l l' : list (string * arg)) {struct l} : Prop :=
    match l, l' with
    | [], [] => True
    | (n, x) :: r, (n', x') :: r' => n' = n /\ like x x' /\ all r r'
    | _, _ => False
    end in
  let each := fix each (l l' : list arg) {struct l} : Prop :=
    match l, l' with
    | [], [] => True
    | x :: r, x' :: r' => like x x' /\ each r r'
    | _, _ => False
    end in
  match a, b with
  | Account _, Account who => is_bytes who /\ List.length who = 32%nat
  | Hash _, Hash h => is_bytes h /\ List.length h = 32%nat
  | Money packed _, Money packed' n => packed' = packed /\ (n < 2 ^ 128)%N
  | Number packed w _, Number packed' w' n => packed' = packed /\ w' = w /\ (n < 2 ^ (8 * N.of_nat (usize w)))%N
  | Truth _, Truth _ => True
  | Bytes _, Bytes l => is_bytes l /\ (N.of_nat (List.length l) < 2 ^ 32)%N
  | Fixed l, Fixed l' => is_bytes l' /\ List.length l' = List.length l
  | Choice n name, Choice n' name' => n' = n /\ name' = name
  | Given n name x, Given n' name' x' => n' = n /\ name' = name /\ like x x'
  | Struct l, Struct l' => all l l'
  | Several l, Several l' => (N.of_nat (List.length l') < 2 ^ 32)%N /\
      Forall (fun y => (fix one (l : list arg) : Prop := match l with [] => False | x :: r => like x y \/ one r end) l) l'
  | Order i j pallet name l, Order i' j' pallet' name' l' => i' = i /\ j' = j /\ pallet' = pallet /\ name' = name /\ all l l'
  | Made n name l, Made n' name' l' => n' = n /\ name' = name /\ all l l'
  | Inside x, Inside x' => like x x'
  | Numbered n name l, Numbered n' name' l' => n' = n /\ name' = name /\ each l l'
  | Tuple l, Tuple l' => each l l'
  | Raw k l, Raw k' l' => k' = k /\ is_bytes l' /\ List.length l' = List.length l
  | Part packed k _, Part packed' k' n => packed' = packed /\ k' = k /\ (n < whole k)%N
  | Packed w _, Packed w' n => w' = w /\ (n < 2 ^ (8 * N.of_nat (usize w)))%N
  | _, _ => False
  end.

(** ** What is signed *)

Fixpoint arg_bytes (a : arg) : bytes :=
  match a with
  | Account who => who
  | Hash h => h
  | Money packed n => if packed then compact_enc n else le_bytes 16 n
  | Number packed w n => if packed then compact_enc n else le_bytes (usize w) n
  | Truth b => [if b then 1%N else 0%N]
  | Bytes l => compact_enc (N.of_nat (List.length l)) ++ l
  | Fixed l => l
  | Choice n _ => [n]
  | Given n _ a => n :: arg_bytes a
  | Struct l => flat_map (fun x => arg_bytes (snd x)) l
  | Several l => compact_enc (N.of_nat (List.length l)) ++ flat_map arg_bytes l
  | Order i j _ _ l => i :: j :: flat_map (fun x => arg_bytes (snd x)) l
  | Made n _ l => n :: flat_map (fun x => arg_bytes (snd x)) l
  | Inside a => arg_bytes a
  | Numbered n _ l => n :: flat_map arg_bytes l
  | Tuple l => flat_map arg_bytes l
  | Raw _ l => l
  | Part packed k n => if packed then compact_enc n else le_bytes (usize (part_width k)) n
  | Packed _ n => compact_enc n
  end.

(** ** What is shown *)

Local Open Scope string_scope.

Section Lines.
Variable base58 : fixed_kind -> bytes -> N -> string.
Variable specs : short_specs.

(** Bytes are shown as text if they are text (when they are: C39). *)
Definition bytes_line (l : bytes) : string :=
  match l with
  | [] => "Sequence: 0 element(s)"
  | _ => match text_of l with Some text => "Text: " ++ text | None => "Sequence u8: " ++ hex_encode l end
  end.

Definition width_name (w : uwidth) : string :=
  match w with U8 => "u8" | U16 => "u16" | U32 => "u32" | U64 => "u64" | U128 => "u128" end.

(** Keys and signatures, and other bytes of known length; keys are shown as accounts are. *)
Definition raw_line (k : fixed_kind) (l : bytes) : string :=
  match k with
  | KAccountId32 => "Id: " ++ base58 k l (base58prefix specs)
  | KPubEd25519 => "PublicKey Ed25519: " ++ base58 k l (base58prefix specs)
  | KPubSr25519 => "PublicKey Sr25519: " ++ base58 k l (base58prefix specs)
  | KPubEcdsa => "PublicKey Ecdsa: " ++ base58 k l (base58prefix specs)
  | KSigEd25519 => "Signature Ed25519: " ++ hex_encode l
  | KSigSr25519 => "Signature Sr25519: " ++ hex_encode l
  | KSigEcdsa => "Signature Ecdsa: " ++ hex_encode l
  | KH160 => "H160: " ++ hex_encode l
  | KH512 => "H512: " ++ hex_encode l
  end.

Definition part_name (k : per_kind) : string :=
  match k with KPerU16 => "PerU16" | KPercent => "Percent" | KPermill => "Permill" | KPerbill => "Perbill" | KPerquintill => "Perquintill" end.

(** [unit]: amounts are in the unit of the chain, which is so only in the pallets known to use it. *)
Fixpoint arg_lines (unit : bool) (a : arg) : list string :=
  match a with
  | Account who => ["Id: " ++ base58 KAccountId32 who (base58prefix specs)]
  | Hash h => ["H256: " ++ hex_encode h]
  | Money _ n => [if unit then "Balance: " ++ money specs n else "Balance Raw: " ++ dec_string n]
  | Number _ w n => [width_name w ++ ": " ++ dec_string n]
  | Truth b => ["Bool: " ++ if b then "true" else "false"]
  | Bytes l | Fixed l => [bytes_line l]
  | Choice _ name => ["Enum"; "  Enum Variant Name: " ++ name]
  | Given _ name a => "Enum" :: ("  Enum Variant Name: " ++ name) :: map (append "    ") (arg_lines unit a)
  | Struct l =>
      ("Struct: " ++ dec_string (N.of_nat (List.length l)) ++ " field(s)") ::
      map (append "  ") (flat_map (fun x => ("Field Name: " ++ fst x) :: map (append "  ") (arg_lines unit (snd x))) l)
  | Several l =>
      ("Sequence: " ++ dec_string (N.of_nat (List.length l)) ++ " element(s)") :: map (append "  ") (flat_map (arg_lines unit) l)
  | Order _ _ pallet name l =>
      ("Pallet: " ++ pallet) :: ("  Call: " ++ name) ::
      map (append "    ") (flat_map (fun x => ("Field Name: " ++ fst x) ::
        map (append "  ") (arg_lines (String.eqb pallet "Balances" || String.eqb pallet "Staking") (snd x))) l)
  | Made _ name l => "Enum" :: ("  Enum Variant Name: " ++ name) ::
      map (append "    ") (flat_map (fun x => ("Field Name: " ++ fst x) :: map (append "  ") (arg_lines unit (snd x))) l)
  | Inside a => arg_lines unit a
  | Numbered _ name l => "Enum" :: ("  Enum Variant Name: " ++ name) ::
      map (append "    ") ((fix from (i : N) (l : list arg) : list string :=
        match l with [] => [] | a :: l' => ("Field Number: " ++ dec_string i) :: map (append "  ") (arg_lines unit a) ++ from (i + 1)%N l' end) 1%N l)
  | Tuple l => ("Tuple: " ++ dec_string (N.of_nat (List.length l)) ++ " element(s)") :: map (append "  ") (flat_map (arg_lines unit) l)
  | Raw k l => [raw_line k l]
  | Part _ k n => [part_name k ++ ": " ++ dec_string n]
  | Packed w n => [width_name w ++ ": " ++ dec_string n]
  end.
End Lines.
