(** Cards: /repo/src/cards.rs:63-79, 132-217, 357-1260 and the carding of transactions,
    /repo/src/lib.rs:656-671, 721-735. No proofs here.

    Simplifications: indents and counts are unbounded naturals (u32/usize in the code);
    the families of cards with the same payload are merged as in [pdata]; the text forms
    of bit vectors, base58 addresses and identicons are arbitrary functions. *)
From Verif Require Import Base Compact Types Decode Sign Balance.
Local Open Scope string_scope.
Local Open Scope list_scope.

(** cards.rs:889-892 `InfoFlat`. *)
Record info_flat := InfoFlat { if_docs : option string; if_path : option string }.

(** cards.rs:63-79 `Info::flatten`. *)
Definition flatten (i : info) : info_flat :=
  InfoFlat (if str_is_empty (i_docs i) then None else Some (i_docs i))
           (match i_path i with [] => None | p => Some (join " >> " p) end).

(** cards.rs:856-865 `info_with_docs_only`. *)
Definition info_with_docs_only (docs : string) : list info_flat :=
  if str_is_empty docs then [] else [InfoFlat (Some docs) None].

(** lib.rs:552-556 `ShortSpecs`. *)
Record short_specs := ShortSpecs { base58prefix : N; decimals : N; unit_name : string }.

(** cards.rs:941-1019 `ParserCard`. [PcBalance None] and [PcTip None] stand for a panic
    of the balance formatting (excluded for all u128 by C36). *)
Inductive pcard :=
| PcBalance (c : option currency)
| PcBalanceRaw (s : string)
| PcBitVec (store : uwidth) (order : bit_order) (bits : list bool)
| PcHash (s : spec_hash) (h : bytes)
| PcCallName (s : string)
| PcCompositeAnnounced (n : nat)
| PcEmptyEnum
| PcEnumAnnounced
| PcEnumVariantName (s : string)
| PcEra (e : era)
| PcEventName (s : string)
| PcFieldName (s : string)
| PcFieldNumber (n : nat)
| PcFixed (k : fixed_kind) (b : bytes)            (* H160, H512, signatures *)
| PcId (k : fixed_kind) (base58 : string) (identicon : bytes) (* Id, public keys *)
| PcNameSpecVersion (name version : string)
| PcNonce (s : string)
| PcPalletName (s : string)
| PcPer (k : per_kind) (parts : N)
| PcBool (b : bool)
| PcChar (c : N)
| PcInt (w : uwidth) (z : Z)
| PcI256 (z : Z)
| PcUInt (w : uwidth) (n : N)
| PcU256 (n : N)
| PcSequenceAnnounced (len : nat) (element_info_flat : list info_flat)
| PcSequenceU8 (hex : string) (text : option string) (element_info_flat : list info_flat)
| PcSpecName (s : string)
| PcText (s : string)
| PcTip (c : option currency)
| PcTipAsset (s : string)
| PcTupleAnnounced (n : nat)
| PcTxVersion (s : string).

(** cards.rs:879-883 `ExtendedCard`. *)
Record ecard := ECard { ec_card : pcard; ec_indent : nat; ec_info : list info_flat }.

(** cards.rs:137 `PALLETS_BALANCE_VALID`, 150-152 `is_balance_display`. *)
Definition PALLETS_BALANCE_VALID : list string := ["Balances"; "Staking"].
Definition is_balance_display (p : psdata pdata) : bool :=
  str_in (ps_pallet_name p) PALLETS_BALANCE_VALID.

(** `hex::encode`. *)
(** cards.rs:649, 682, 1100. *)
Definition hex_digit (n : N) : ascii :=
  if (n <? 10)%N then ascii_of_N (48 + n) else ascii_of_N (87 + n).
Fixpoint hex_encode (l : bytes) : string :=
  match l with
  | [] => ""
  | b :: r => String (hex_digit (b / 16)) (String (hex_digit (b mod 16)) (hex_encode r))
  end.

(** cards.rs:643-646 and 676-679. *)
Definition text_of (l : bytes) : option string :=
  if utf8_valid l then Some (string_of_bytes l) else None.

Section Cards.
(** `to_base58_string(prefix)` of accounts and public keys; identicon of the bytes. *)
Variable base58 : fixed_kind -> bytes -> N -> string.
Variable identicon : bytes -> bytes.
Variable specs : short_specs.
Variable chain_name : string.   (* argument `spec_name` *)

(** cards.rs:369-406 `specialty_card!`. *)
Definition specialty_card (w : uwidth) (value : N) (s : spec_uint) (display_balance : bool) : pcard :=
  match s with
  | SuNone => PcUInt w value
  | SuBalance =>
      if display_balance
      then PcBalance (convert_balance_pretty value (decimals specs) (unit_name specs))
      else PcBalanceRaw (dec_string value)
  | SuTip => PcTip (convert_balance_pretty value (decimals specs) (unit_name specs))
  | SuTipAsset => PcTipAsset (dec_string value)
  | SuNonce => PcNonce (dec_string value)
  | SuSpecVersion => PcNameSpecVersion chain_name (dec_string value)
  | SuTxVersion => PcTxVersion (dec_string value)
  end.

(** Keys are shown as addresses, other fixed-length items as bytes. *)
(** cards.rs:919-928 and 1100-1180. *)
Definition fixed_card (k : fixed_kind) (b : bytes) : pcard :=
  match k with
  | KAccountId32 | KPubEd25519 | KPubSr25519 | KPubEcdsa =>
      PcId k (base58 k b (base58prefix specs)) (identicon b)
  | _ => PcFixed k b
  end.

(** cards.rs:638-693: `Sequence`, and the `sequence!` functions at 409-437. *)
Definition seq_u8_card (l : bytes) (element_info_flat : list info_flat) : pcard :=
  PcSequenceU8 (hex_encode l) (text_of l) element_info_flat.

(** cards.rs:638-693; macro `sequence!` in cards.rs:409-442. *)
Definition card_sequence (s : sequence) (element_info : list info) (inf : list info_flat)
    (indent : nat) : list ecard :=
  let element_info_flat := map flatten element_info in
  match s with
  | SeqU U8 l => [ECard (seq_u8_card l element_info_flat) indent inf]
  | SeqU w l =>
      ECard (PcSequenceAnnounced (List.length l) element_info_flat) indent inf
      :: map (fun x => ECard (PcUInt w x) (indent + 1) []) l
  | SeqVecU8 l inner =>
      ECard (PcSequenceAnnounced (List.length l) element_info_flat) indent inf
      :: map (fun x => ECard (seq_u8_card x (map flatten inner)) (indent + 1) []) l
  end.

Section Nested.
(** `ParsedData::card`, applied to nested data. *)
Variable card : pdata -> list info_flat -> nat -> bool -> list ecard.

(** cards.rs:1023-1033 `ExtendedData::card`. *)
Definition card_ext_with (x : ext pdata) (indent : nat) (display_balance : bool) : list ecard :=
  card (x_data x) (map flatten (x_info x)) indent display_balance.

(** cards.rs:793-818 `card_unnamed_single_field`. *)
Definition card_unnamed_single_field (new_info_flat : list info_flat) (f : fdata pdata)
    (indent : nat) (display_balance : bool) : list ecard :=
  card (x_data (fd_data f))
       ((if str_is_empty (fd_docs f) then new_info_flat
         else new_info_flat ++ [InfoFlat (Some (fd_docs f)) None])
        ++ map flatten (x_info (fd_data f)))
       indent display_balance.

(** cards.rs:826-851 `card_field_set`; [i] is the enumeration index. *)
Fixpoint card_field_set (i : nat) (fields : list (fdata pdata)) (indent : nat)
    (display_balance : bool) : list ecard :=
  match fields with
  | [] => []
  | f :: rest =>
      ECard (match fd_name f with Some a => PcFieldName a | None => PcFieldNumber (i + 1) end)
            indent (info_with_docs_only (fd_docs f))
      :: card_ext_with (fd_data f) (indent + 1) display_balance
      ++ card_field_set (i + 1) rest indent display_balance
  end.

(** `if fields.len() == 1 && fields[0].field_name.is_none() {..} else {..}` of enum
    variants, calls and events. *)
(** cards.rs:150-194 and 752-784. *)
Definition card_variant_fields (fields : list (fdata pdata)) (indent : nat)
    (display_balance : bool) : list ecard :=
  match fields with
  | [f] =>
      match fd_name f with
      | None => card_unnamed_single_field [] f indent display_balance
      | Some _ => card_field_set 0 fields indent display_balance
      end
  | _ => card_field_set 0 fields indent display_balance
  end.

(** cards.rs:150-194 `PalletSpecificData::card`. *)
Definition card_pallet_specific (p : psdata pdata) (indent : nat) (item : pitem) : list ecard :=
  ECard (PcPalletName (ps_pallet_name p)) indent [flatten (ps_info p)]
  :: ECard (match item with
            | ItCall => PcCallName (ps_variant_name p)
            | ItEvent => PcEventName (ps_variant_name p)
            end) (indent + 1) (info_with_docs_only (ps_variant_docs p))
  :: card_variant_fields (ps_fields p) (indent + 2) (is_balance_display p).

(** cards.rs:694-717. *)
Fixpoint card_elements (l : list pdata) (indent : nat) (display_balance : bool) : list ecard :=
  match l with
  | [] => []
  | d :: rest => card d [] indent display_balance ++ card_elements rest indent display_balance
  end.

(** cards.rs:732-751. *)
Fixpoint card_tuple (l : list (ext pdata)) (indent : nat) (display_balance : bool) : list ecard :=
  match l with
  | [] => []
  | x :: rest => card_ext_with x indent display_balance ++ card_tuple rest indent display_balance
  end.
End Nested.

(** cards.rs:445-786 `ParsedData::card`. *)
Fixpoint card (d : pdata) (inf : list info_flat) (indent : nat) (display_balance : bool)
  : list ecard :=
  let single c := [ECard c indent inf] in
  match d with
  | DBitVec w o bits => single (PcBitVec w o bits)
  | DHash s h => single (PcHash s h)
  | DFixed k b => single (fixed_card k b)
  | DPer k n => single (PcPer k n)
  | DBool b => single (PcBool b)
  | DChar c => single (PcChar c)
  | DUInt w value s => single (specialty_card w value s display_balance)
  | DU256 n => single (PcU256 n)
  | DInt w z => single (PcInt w z)
  | DI256 z => single (PcI256 z)
  | DText t SsNone => single (PcText (string_of_bytes t))
  | DText t SsSpecName => single (PcSpecName (string_of_bytes t))
  | DEra e => single (PcEra e)
  | DEmptyEnum => single PcEmptyEnum
  | DComposite fields =>
      match fields with
      | [] => []
      | [f] =>
          match fd_name f with
          | None => card_unnamed_single_field card inf f indent display_balance
          | Some _ =>
              ECard (PcCompositeAnnounced 1) indent inf
              :: card_field_set card 0 fields (indent + 1) display_balance
          end
      | _ =>
          ECard (PcCompositeAnnounced (List.length fields)) indent inf
          :: card_field_set card 0 fields (indent + 1) display_balance
      end
  | DVariant v =>
      ECard PcEnumAnnounced indent inf
      :: ECard (PcEnumVariantName (vd_name v)) (indent + 1) (info_with_docs_only (vd_docs v))
      :: card_variant_fields card (vd_fields v) (indent + 2) display_balance
  | DCall c => card_pallet_specific card c indent ItCall
  | DEvent c => card_pallet_specific card c indent ItEvent
  | DTuple l =>
      match l with
      | [] => []
      | _ => ECard (PcTupleAnnounced (List.length l)) indent inf
             :: card_tuple card l (indent + 1) display_balance
      end
  | DSequence element_info s => card_sequence s element_info inf indent
  | DSequenceRaw element_info l =>
      ECard (PcSequenceAnnounced (List.length l) (map flatten element_info)) indent inf
      :: card_elements card l (indent + 1) display_balance
  end.

(** cards.rs:1023-1033 `ExtendedData::card`. *)
Definition card_ext (x : ext pdata) (indent : nat) (display_balance : bool) : list ecard :=
  card_ext_with card x indent display_balance.

(** cards.rs:199-207 `Call::card`, `Event::card`. *)
Definition card_call (c : psdata pdata) (indent : nat) : list ecard :=
  card_pallet_specific card c indent ItCall.
Definition card_event (c : psdata pdata) (indent : nat) : list ecard :=
  card_pallet_specific card c indent ItEvent.

(** lib.rs:658-666, 723-731: extensions; empty additions are skipped. *)
Definition card_extensions (l : list (ext pdata)) : list ecard :=
  fold_left (fun acc x =>
               let addition_set := card_ext x 0 true in
               match addition_set with [] => acc | _ => acc ++ addition_set end) l [].

(** lib.rs:656-671 `TransactionParsed::card`. *)
Definition card_transaction {ME} (t : transaction_parsed ME)
  : (list ecard + signable_err ME) * list ecard :=
  (match tp_call t with
   | inl call => inl (card_call call 0)
   | inr e => inr e
   end, card_extensions (tp_extensions t)).

(** lib.rs:721-734 `TransactionUnmarkedParsed::card`. *)
Definition card_transaction_unmarked (call : psdata pdata) (extensions : list (ext pdata))
  : list ecard * list ecard :=
  (card_call call 0, card_extensions extensions).

End Cards.

(** ** Printing: cards.rs:868-876, 899-905, 1036-1260 *)

Local Open Scope string_scope.

(** `"  ".repeat(n)`. *)
(** cards.rs:868-876 `readable`. *)
Fixpoint indent_str (n : nat) : string :=
  match n with O => "" | S n' => "  " ++ indent_str n' end.

(** cards.rs:868-876 `readable`. *)
Definition readable (indent : nat) (card_type card_payload : string) : string :=
  indent_str indent ++ card_type ++ ": " ++ card_payload.

(** UTF-8 encoding of a scalar value (`char::to_string`). *)
(** cards.rs:1145 (`PrimitiveChar`). *)
Definition utf8_encode (c : N) : bytes :=
  (if c <? 0x80 then [c]
   else if c <? 0x800 then [0xC0 + c / 64; 0x80 + c mod 64]
   else if c <? 0x10000 then [0xE0 + c / 4096; 0x80 + (c / 64) mod 64; 0x80 + c mod 64]
   else [0xF0 + c / 262144; 0x80 + (c / 4096) mod 64; 0x80 + (c / 64) mod 64; 0x80 + c mod 64])%N.

(** `to_string()` of signed integers, cards.rs:1146-1151. *)
Definition z_string (z : Z) : string :=
  match z with
  | Zneg p => String "-" (dec_string (Npos p))
  | _ => dec_string (Z.to_N z)
  end.

(** `InfoFlat: Display`. *)
(** cards.rs:894-901. *)
Definition info_string (i : info_flat) : string :=
  "(docs: " ++ match if_docs i with Some a => a | None => "None" end ++ ", path: "
  ++ match if_path i with Some a => a | None => "None" end ++ ")".

(** cards.rs:1070-1193. *)
Definition currency_string (c : option currency) : string :=
  match c with Some a => number a ++ " " ++ units a | None => "" end.

(** cards.rs:1070-1193. *)
Definition nat_string (n : nat) : string := dec_string (N.of_nat n).

Section Show.
(** `BitVec: Display`. *)
Variable bits_string : uwidth -> bit_order -> list bool -> string.

(** cards.rs:1070-1193. *)
Definition fixed_label (k : fixed_kind) : string :=
  match k with
  | KH160 => "H160" | KH512 => "H512" | KAccountId32 => "Id"
  | KPubEd25519 => "PublicKey Ed25519" | KPubSr25519 => "PublicKey Sr25519"
  | KPubEcdsa => "PublicKey Ecdsa"
  | KSigEd25519 => "Signature Ed25519" | KSigSr25519 => "Signature Sr25519"
  | KSigEcdsa => "Signature Ecdsa"
  end.

(** cards.rs:1070-1193 `ExtendedCard::show`. *)
Definition show (c : ecard) : string :=
  let r := readable (ec_indent c) in
  match ec_card c with
  | PcBalance a => r "Balance" (currency_string a)
  | PcBalanceRaw a => r "Balance Raw" a
  | PcBitVec w o bits => r (bitvec_name w o) (bits_string w o bits)
  | PcHash ShBlock a => r "Block Hash" (hex_encode a)
  | PcHash ShGenesis a => r "Genesis Hash" (hex_encode a)
  | PcHash ShNone a => r "H256" (hex_encode a)
  | PcCallName a => r "Call" a
  | PcCompositeAnnounced a => r "Struct" (nat_string a ++ " field(s)")
  | PcEmptyEnum => indent_str (ec_indent c) ++ "Enum With No Variants"
  | PcEnumAnnounced => indent_str (ec_indent c) ++ "Enum"
  | PcEnumVariantName a => r "Enum Variant Name" a
  | PcEra Immortal => r "Era" "Immortal"
  | PcEra (Mortal period phase) =>
      r "Era" ("Mortal, phase: " ++ dec_string phase ++ ", period: " ++ dec_string period)
  | PcEventName a => r "Event" a
  | PcFieldName a => r "Field Name" a
  | PcFieldNumber a => r "Field Number" (nat_string a)
  | PcFixed k a => r (fixed_label k) (hex_encode a)
  | PcId k base58 _ => r (fixed_label k) base58
  | PcNameSpecVersion name version => r "Chain" (name ++ version)
  | PcNonce a => r "Nonce" a
  | PcPalletName a => r "Pallet" a
  | PcPer k a => r (per_name k) (dec_string a)
  | PcBool a => r "Bool" (if a then "true" else "false")
  | PcChar a => r "Char" (string_of_bytes (utf8_encode a))
  | PcInt w a => r (int_name w) (z_string a)
  | PcI256 a => r "BigInt" (z_string a)
  | PcUInt w a => r (uint_name w) (dec_string a)
  | PcU256 a => r "BigUint" (dec_string a)
  | PcSequenceAnnounced len _ => r "Sequence" (nat_string len ++ " element(s)")
  | PcSequenceU8 hex text _ =>
      match text with Some t => r "Text" t | None => r "Sequence u8" hex end
  | PcSpecName a => r "Spec Name" a
  | PcText a => r "Text" a
  | PcTip a => r "Tip" (currency_string a)
  | PcTipAsset a => r "Tip Asset" a
  | PcTupleAnnounced a => r "Tuple" (nat_string a ++ " element(s)")
  | PcTxVersion a => r "Tx Version" a
  end.

(** cards.rs:1196-1204. *)
Fixpoint info_printed (indent : nat) (l : list info_flat) : string :=
  match l with
  | [] => ""
  | i :: r => newline ++ indent_str indent ++ info_string i ++ info_printed indent r
  end.

(** cards.rs:1196-1259 `ExtendedCard::show_with_docs`. *)
Definition show_with_docs (c : ecard) : string :=
  let r := readable (ec_indent c) in
  let card_printed :=
    match ec_card c with
    | PcSequenceAnnounced len infos =>
        let element_info_printed := join "," (map info_string infos) in
        if str_is_empty element_info_printed
        then r "Sequence" (nat_string len ++ " element(s)")
        else r "Sequence" (nat_string len ++ " element(s), element info: ["
                           ++ element_info_printed ++ "]")
    | PcSequenceU8 hex text infos =>
        let element_info_printed := join "," (map info_string infos) in
        if str_is_empty element_info_printed
        then match text with Some t => r "Text" t | None => r "Sequence u8" hex end
        else match text with
             | Some t => r "Text" (t ++ ", element info: [" ++ element_info_printed ++ "]")
             | None => r "Sequence u8" (hex ++ ", element info: [" ++ element_info_printed ++ "]")
             end
    | _ => show c
    end in
  card_printed ++ info_printed (ec_indent c) (ec_info c).

(** cards.rs:1036-1049 `ExtendedData::show`, `show_with_docs`, after carding. *)
Definition show_all (l : list ecard) : string := join newline (map show l).
Definition show_all_with_docs (l : list ecard) : string := join newline (map show_with_docs l).

End Show.
