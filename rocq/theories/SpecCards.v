(** What the cards of parsed data show (C37-C40). *)
From Coq Require Import QArith.
From Verif Require Import Base Compact Types Balance Cards Spec SpecBalance.
Local Open Scope string_scope.
Local Open Scope list_scope.

(** ** Outlines (C37) *)

(** Cards form one block: the first one is at [indent], all others are deeper, and no card
    is deeper by more than one than the one before. *)
Definition block (indent : nat) (l : list ecard) : Prop :=
  match l with
  | [] => True
  | c :: r => ec_indent c = indent /\ Forall (fun c' => (indent < ec_indent c')%nat) r
  end /\
  forall pre a b post, l = pre ++ a :: b :: post -> (ec_indent b <= S (ec_indent a))%nat.

Definition shift (k : nat) (c : ecard) : ecard := ECard (ec_card c) (k + ec_indent c) (ec_info c).

(** ** Contents (C38, C39) *)

(** What there is to show: values, and the names of enum variants, pallets, calls, events. *)
Inductive item :=
| IValue (d : pdata)
| IInteger (w : uwidth) (n : N)
| IByteString (l : bytes)
| IVariant (name : string)
| IPallet (name : string)
| ICall (name : string)
| IEvent (name : string).

(** Pallets in which balances are in units of the chain. *)
Definition unit_pallet (name : string) : bool := String.eqb name "Balances" || String.eqb name "Staking".

(** [contents units d]: all there is in [d], in order, and whether balances there are in
    units of the chain; the innermost call or event decides, outside of any it is [units]. *)
Fixpoint contents (units : bool) (d : pdata) {struct d} : list (bool * item) :=
  let fields u (l : list (fdata pdata)) := flat_map (fun f => contents u (x_data (fd_data f))) l in
  match d with
  | DComposite fs => fields units fs
  | DVariant v => (units, IVariant (vd_name v)) :: fields units (vd_fields v)
  | DCall c =>
      let u := unit_pallet (ps_pallet_name c) in
      (u, IPallet (ps_pallet_name c)) :: (u, ICall (ps_variant_name c)) :: fields u (ps_fields c)
  | DEvent c =>
      let u := unit_pallet (ps_pallet_name c) in
      (u, IPallet (ps_pallet_name c)) :: (u, IEvent (ps_variant_name c)) :: fields u (ps_fields c)
  | DTuple l => flat_map (fun x => contents units (x_data x)) l
  | DSequence _ (SeqU U8 l) => [(units, IByteString l)]
  | DSequence _ (SeqU w l) => map (fun n => (units, IInteger w n)) l
  | DSequence _ (SeqVecU8 l _) => map (fun x => (units, IByteString x)) l
  | DSequenceRaw _ l => flat_map (fun x => contents units x) l
  | _ => [(units, IValue d)]
  end.

(** Cards that only give structure: announcements and field headers. *)
Definition structural (c : pcard) : bool :=
  match c with
  | PcCompositeAnnounced _ | PcTupleAnnounced _ | PcSequenceAnnounced _ _ | PcEnumAnnounced
  | PcFieldName _ | PcFieldNumber _ => true
  | _ => false
  end.

(** Reading hexadecimal digits. *)
Definition hex_value (c : ascii) : option N :=
  let n := N_of_ascii c in
  if ((48 <=? n) && (n <=? 57))%N then Some (n - 48)%N
  else if ((97 <=? n) && (n <=? 102))%N then Some (n - 87)%N
  else None.
Fixpoint unhex (s : string) : option bytes :=
  match s with
  | "" => Some []
  | String a (String b r) =>
      match hex_value a, hex_value b, unhex r with
      | Some x, Some y, Some l => Some ((16 * x + y)%N :: l)
      | _, _, _ => None
      end
  | _ => None
  end.

(** A decimal number without leading zeros. *)
Definition decimal (s : string) (n : N) : Prop :=
  s <> "" /\ all_digits s = true /\ digits_value s = n /\ (String.get 0 s = Some "0"%char -> s = "0").

(** Bytes are shown as text if they are UTF-8. *)
Definition text_if_possible (l : bytes) (t : option string) : Prop :=
  (t = Some (string_of_bytes l) /\ exists cs, forallb scalar cs = true /\ l = utf8s cs) \/
  (t = None /\ forall cs, forallb scalar cs = true -> l <> utf8s cs).

Section Shows.
Variable base58 : fixed_kind -> bytes -> N -> string.
Variable identicon : bytes -> bytes.
Variable specs : short_specs.
Variable chain_name : string.

(** An amount in units of the chain (see C35): the number and the prefix denote the value
    times ten to minus decimals.  Values are u128, decimals u8. *)
Definition in_units (value : N) (c : option currency) : Prop :=
  (value < 2 ^ 128)%N -> (decimals specs < 256)%N ->
  exists number prefix int frac exponent,
    c = Some (Currency number (prefix ++ unit_name specs)%string) /\
    displays number int frac /\ In (prefix, exponent) prefixes /\
    (amount int frac exponent == inject_Z (Z.of_N value) * Qpower (10 # 1) (- Z.of_N (decimals specs)))%Q.

(** [shows units i c]: card [c] displays [i]. *)
Inductive shows : bool -> item -> pcard -> Prop :=
| S_bits u w o b : shows u (IValue (DBitVec w o b)) (PcBitVec w o b)
| S_hash u s h : shows u (IValue (DHash s h)) (PcHash s h)
| S_key u k b : In k [KAccountId32; KPubEd25519; KPubSr25519; KPubEcdsa] ->
    shows u (IValue (DFixed k b)) (PcId k (base58 k b (base58prefix specs)) (identicon b))
| S_fixed u k b : ~ In k [KAccountId32; KPubEd25519; KPubSr25519; KPubEcdsa] ->
    shows u (IValue (DFixed k b)) (PcFixed k b)
| S_per u k n : shows u (IValue (DPer k n)) (PcPer k n)
| S_bool u b : shows u (IValue (DBool b)) (PcBool b)
| S_char u c : shows u (IValue (DChar c)) (PcChar c)
| S_number u w n : shows u (IValue (DUInt w n SuNone)) (PcUInt w n)
| S_balance w n c : in_units n c -> shows true (IValue (DUInt w n SuBalance)) (PcBalance c)
| S_balance_raw w n s : decimal s n -> shows false (IValue (DUInt w n SuBalance)) (PcBalanceRaw s)
| S_tip u w n c : in_units n c -> shows u (IValue (DUInt w n SuTip)) (PcTip c)
| S_tip_asset u w n s : decimal s n -> shows u (IValue (DUInt w n SuTipAsset)) (PcTipAsset s)
| S_nonce u w n s : decimal s n -> shows u (IValue (DUInt w n SuNonce)) (PcNonce s)
| S_spec_version u w n s : decimal s n ->
    shows u (IValue (DUInt w n SuSpecVersion)) (PcNameSpecVersion chain_name s)
| S_tx_version u w n s : decimal s n -> shows u (IValue (DUInt w n SuTxVersion)) (PcTxVersion s)
| S_u256 u n : shows u (IValue (DU256 n)) (PcU256 n)
| S_int u w z : shows u (IValue (DInt w z)) (PcInt w z)
| S_i256 u z : shows u (IValue (DI256 z)) (PcI256 z)
| S_text u t : shows u (IValue (DText t SsNone)) (PcText (string_of_bytes t))
| S_spec_name u t : shows u (IValue (DText t SsSpecName)) (PcSpecName (string_of_bytes t))
| S_era u e : shows u (IValue (DEra e)) (PcEra e)
| S_empty u : shows u (IValue DEmptyEnum) PcEmptyEnum
| S_integer u w n : shows u (IInteger w n) (PcUInt w n)
| S_bytes u l s t i : (is_bytes l -> unhex s = Some l) ->
    text_if_possible l t ->
    shows u (IByteString l) (PcSequenceU8 s t i)
| S_variant u n : shows u (IVariant n) (PcEnumVariantName n)
| S_pallet u n : shows u (IPallet n) (PcPalletName n)
| S_call u n : shows u (ICall n) (PcCallName n)
| S_event u n : shows u (IEvent n) (PcEventName n).
End Shows.

(** Items within the ranges of their types. *)
Definition in_range (i : item) : Prop :=
  match i with
  | IValue (DUInt _ n _) => (n < 2 ^ 128)%N
  | IValue (DText t _) => is_bytes t
  | IValue (DFixed k l) => is_bytes l /\ List.length l = raw_len k
  | IByteString l => is_bytes l
  | _ => True
  end.

(** Addresses tell keys apart. *)
Definition base58_faithful (base58 : fixed_kind -> bytes -> N -> string) : Prop :=
  forall k a b p, is_bytes a -> is_bytes b -> List.length a = raw_len k -> List.length b = raw_len k ->
    base58 k a p = base58 k b p -> a = b.

(** Items that are alike: a labelled integer is the same whatever its width, and an integer
    is the same whether collected or not. *)
Definition alike (i j : item) : Prop :=
  match i, j with
  | IValue (DUInt w n s), IValue (DUInt w' n' s') => n = n' /\ s = s' /\ (s = SuNone -> w = w')
  | IInteger w n, IValue (DUInt w' n' SuNone) | IValue (DUInt w n SuNone), IInteger w' n' => w = w' /\ n = n'
  | _, _ => i = j
  end.

(** ** Announced numbers (C39) *)

(** The cards directly below a card at indent [i] that is followed by [l]. *)
Fixpoint below (i : nat) (l : list ecard) : list pcard :=
  match l with
  | [] => []
  | c :: r =>
      if (ec_indent c <=? i)%nat then []
      else if (ec_indent c =? S i)%nat then ec_card c :: below i r
      else below i r
  end.

Definition field_header (k : nat) (c : pcard) : Prop :=
  (exists name, c = PcFieldName name) \/ c = PcFieldNumber k.

(** The fields of a struct: one header each, numbered from one where unnamed. *)
Definition field_headers (l : list pcard) : Prop :=
  forall k c, nth_error l k = Some c -> field_header (S k) c.

(** [tallies full c l]: [l] is what should be directly below [c].  Elements without any
    content have no cards; if there are none of them ([full]), the numbers are exact. *)
Definition tallies (full : bool) (c : pcard) (l : list pcard) : Prop :=
  match c with
  | PcCompositeAnnounced n => List.length l = n /\ field_headers l
  | PcTupleAnnounced n | PcSequenceAnnounced n _ =>
      (List.length l <= n)%nat /\ (full = true -> List.length l = n)
  | PcFieldName _ | PcFieldNumber _ => (List.length l <= 1)%nat /\ (full = true -> List.length l = 1%nat)
  | PcEnumAnnounced => exists name, l = [PcEnumVariantName name]
  | PcPalletName _ => exists name, l = [PcCallName name] \/ l = [PcEventName name]
  | PcEnumVariantName _ | PcCallName _ | PcEventName _ => field_headers l \/ (List.length l <= 1)%nat
  | _ => l = []
  end.

(** Structs without fields, empty tuples, and structs around them: there is nothing to show. *)
Fixpoint hollow (d : pdata) : bool :=
  match d with
  | DComposite [] => true
  | DComposite [f] => match fd_name f with None => hollow (x_data (fd_data f)) | Some _ => false end
  | DTuple [] => true
  | _ => false
  end.

(** [everywhere P d]: [P] holds of [d] and of all data nested in it. *)
Fixpoint everywhere (P : pdata -> Prop) (d : pdata) {struct d} : Prop :=
  let fields := fix fields (l : list (fdata pdata)) : Prop :=
    match l with [] => True | f :: r => everywhere P (x_data (fd_data f)) /\ fields r end in
  P d /\
  match d with
  | DComposite fs => fields fs
  | DVariant v => fields (vd_fields v)
  | DCall c | DEvent c => fields (ps_fields c)
  | DTuple l =>
      (fix exts (l : list (ext pdata)) : Prop :=
         match l with [] => True | x :: r => everywhere P (x_data x) /\ exts r end) l
  | DSequenceRaw _ l =>
      (fix elements (l : list pdata) : Prop :=
         match l with [] => True | x :: r => everywhere P x /\ elements r end) l
  | _ => True
  end.

(** ** Type information (C40) *)

Definition says_something (i : info_flat) : Prop :=
  (if_docs i <> None \/ if_path i <> None) /\ if_docs i <> Some "".

(** The type information of elements, in cards of sequences. *)
Definition element_infos (c : pcard) : list info_flat :=
  match c with
  | PcSequenceAnnounced _ l | PcSequenceU8 _ _ l => l
  | _ => []
  end.

Definition informative (c : ecard) : Prop :=
  Forall says_something (ec_info c) /\ Forall says_something (element_infos (ec_card c)).

(** ** Printing (C45) *)

Fixpoint blanks (n : nat) : string := match n with O => "" | S m => String " " (blanks m) end.

Definition integer_print (s : string) (z : Z) : Prop :=
  (0 <= z /\ decimal s (Z.to_N z))%Z \/ (z < 0 /\ exists t, s = String "-" t /\ decimal t (Z.to_N (- z)))%Z.

Definition width_print (w : uwidth) : string :=
  match w with U8 => "8" | U16 => "16" | U32 => "32" | U64 => "64" | U128 => "128" end.

Section Printing.
Variable bits_string : uwidth -> bit_order -> list bool -> string.
Local Open Scope string_scope.

Definition counts (what : string) (n : nat) (p : string) : Prop :=
  exists q, decimal q (N.of_nat n) /\ p = q ++ " " ++ what.
Definition hex_of (b : bytes) (p : string) : Prop := is_bytes b -> unhex p = Some b.

(** [kind c label P]: a card is printed under this label, with a text satisfying [P]. *)
Definition kind (c : pcard) : option (string * (string -> Prop)) :=
  match c with
  | PcBalance (Some a) => Some ("Balance", fun p => p = number a ++ " " ++ units a)
  | PcTip (Some a) => Some ("Tip", fun p => p = number a ++ " " ++ units a)
  | PcBalance None => Some ("Balance", fun _ => True)
  | PcTip None => Some ("Tip", fun _ => True)
  | PcBalanceRaw s => Some ("Balance Raw", fun p => p = s)
  | PcBitVec w Lsb0 b => Some ("BitVec<u" ++ width_print w ++ ", Lsb0>", fun p => p = bits_string w Lsb0 b)
  | PcBitVec w Msb0 b => Some ("BitVec<u" ++ width_print w ++ ", Msb0>", fun p => p = bits_string w Msb0 b)
  | PcHash ShBlock h => Some ("Block Hash", hex_of h)
  | PcHash ShGenesis h => Some ("Genesis Hash", hex_of h)
  | PcHash ShNone h => Some ("H256", hex_of h)
  | PcCallName s => Some ("Call", fun p => p = s)
  | PcCompositeAnnounced n => Some ("Struct", counts "field(s)" n)
  | PcTupleAnnounced n => Some ("Tuple", counts "element(s)" n)
  | PcSequenceAnnounced n _ => Some ("Sequence", counts "element(s)" n)
  | PcEmptyEnum | PcEnumAnnounced => None
  | PcEnumVariantName s => Some ("Enum Variant Name", fun p => p = s)
  | PcEra Immortal => Some ("Era", fun p => p = "Immortal")
  | PcEra (Mortal period phase) =>
      Some ("Era", fun p => exists a b, decimal a phase /\ decimal b period /\
                            p = "Mortal, phase: " ++ a ++ ", period: " ++ b)
  | PcEventName s => Some ("Event", fun p => p = s)
  | PcFieldName s => Some ("Field Name", fun p => p = s)
  | PcFieldNumber n => Some ("Field Number", fun p => decimal p (N.of_nat n))
  | PcFixed KH160 b => Some ("H160", hex_of b)
  | PcFixed KH512 b => Some ("H512", hex_of b)
  | PcFixed KSigEd25519 b => Some ("Signature Ed25519", hex_of b)
  | PcFixed KSigSr25519 b => Some ("Signature Sr25519", hex_of b)
  | PcFixed KSigEcdsa b => Some ("Signature Ecdsa", hex_of b)
  | PcFixed KAccountId32 b => Some ("Id", hex_of b)
  | PcFixed KPubEd25519 b => Some ("PublicKey Ed25519", hex_of b)
  | PcFixed KPubSr25519 b => Some ("PublicKey Sr25519", hex_of b)
  | PcFixed KPubEcdsa b => Some ("PublicKey Ecdsa", hex_of b)
  | PcId KAccountId32 s _ => Some ("Id", fun p => p = s)
  | PcId KPubEd25519 s _ => Some ("PublicKey Ed25519", fun p => p = s)
  | PcId KPubSr25519 s _ => Some ("PublicKey Sr25519", fun p => p = s)
  | PcId KPubEcdsa s _ => Some ("PublicKey Ecdsa", fun p => p = s)
  | PcId KH160 s _ => Some ("H160", fun p => p = s)
  | PcId KH512 s _ => Some ("H512", fun p => p = s)
  | PcId KSigEd25519 s _ => Some ("Signature Ed25519", fun p => p = s)
  | PcId KSigSr25519 s _ => Some ("Signature Sr25519", fun p => p = s)
  | PcId KSigEcdsa s _ => Some ("Signature Ecdsa", fun p => p = s)
  | PcNameSpecVersion a b => Some ("Chain", fun p => p = a ++ b)
  | PcNonce s => Some ("Nonce", fun p => p = s)
  | PcPalletName s => Some ("Pallet", fun p => p = s)
  | PcPer KPerU16 n => Some ("PerU16", fun p => decimal p n)
  | PcPer KPercent n => Some ("Percent", fun p => decimal p n)
  | PcPer KPermill n => Some ("Permill", fun p => decimal p n)
  | PcPer KPerbill n => Some ("Perbill", fun p => decimal p n)
  | PcPer KPerquintill n => Some ("Perquintill", fun p => decimal p n)
  | PcBool b => Some ("Bool", fun p => p = if b then "true" else "false")
  | PcChar c => Some ("Char", fun p => scalar c = true -> p = string_of_bytes (utf8 c))
  | PcInt w z => Some ("i" ++ width_print w, fun p => integer_print p z)
  | PcI256 z => Some ("BigInt", fun p => integer_print p z)
  | PcUInt w n => Some ("u" ++ width_print w, fun p => decimal p n)
  | PcU256 n => Some ("BigUint", fun p => decimal p n)
  | PcSequenceU8 _ (Some t) _ => Some ("Text", fun p => p = t)
  | PcSequenceU8 hex None _ => Some ("Sequence u8", fun p => p = hex)
  | PcSpecName s => Some ("Spec Name", fun p => p = s)
  | PcText s => Some ("Text", fun p => p = s)
  | PcTipAsset s => Some ("Tip Asset", fun p => p = s)
  | PcTxVersion s => Some ("Tx Version", fun p => p = s)
  end.

(** [prints c text]: the text of a card, apart from the indent. *)
Definition prints (c : pcard) (text : string) : Prop :=
  match kind c with
  | Some (label, P) => exists p, P p /\ text = label ++ ": " ++ p
  | None => text = match c with PcEmptyEnum => "Enum With No Variants" | _ => "Enum" end
  end.

(** Type information as text. *)
Definition info_text (i : info_flat) : string :=
  "(docs: " ++ (match if_docs i with Some s => s | None => "None" end)
  ++ ", path: " ++ (match if_path i with Some s => s | None => "None" end) ++ ")".

Fixpoint commas (l : list string) : string :=
  match l with [] => "" | [s] => s | s :: r => s ++ "," ++ commas r end.

(** What printing with docs adds: the information on elements, then one line for each piece
    of type information, at the same indent. *)
Definition element_note (l : list info_flat) : string :=
  match l with [] => "" | _ => ", element info: [" ++ commas (map info_text l) ++ "]" end.
Fixpoint info_lines (n : nat) (l : list info_flat) : string :=
  match l with
  | [] => ""
  | i :: r => String (ascii_of_nat 10) (blanks (2 * n)) ++ info_text i ++ info_lines n r
  end.
End Printing.
