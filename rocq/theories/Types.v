(** Type registry (scale-info), parsed data (cards.rs), specialty enums
    (special_indicators.rs) and propagated data (propagated.rs). No proofs here. *)
From Verif Require Import Base Compact.

(** ** scale_info 2.11.5 (PortableForm) *)

(** scale-info `TypeDefPrimitive`, used in decoding_sci.rs:50-120. *)
Inductive prim :=
| PrBool | PrChar | PrStr | PrU (w : uwidth) | PrU256 | PrI (w : uwidth) | PrI256.

(** scale-info `Field`, used in decoding_sci.rs:579-623. *)
Record field := Field {
  f_name : option string;
  f_ty : N;
  f_type_name : option string;
  f_docs : list string
}.

(** scale-info `Variant`, used in decoding_sci.rs:691-716. *)
Record variant := Variant {
  v_name : string;
  v_fields : list field;
  v_index : N;
  v_docs : list string
}.

(** scale-info `TypeDef`, used in decoding_sci.rs:280-397. *)
Inductive typedef :=
| TComposite (fields : list field)
| TVariant (variants : list variant)
| TSequence (elem : N)
| TArray (len : N) (elem : N)
| TTuple (elems : list N)
| TPrimitive (p : prim)
| TCompact (inner : N)
| TBitSequence (store order : N).

(** scale-info `Type`, used in decoding_sci.rs:260-280. *)
Record ty := Ty {
  t_path : list string;
  t_params : list (string * option N);
  t_def : typedef;
  t_docs : list string
}.

(** scale-info `Path::ident`: the last segment. *)
(** Used in special_indicators.rs:403-413 and 492-553. *)
Fixpoint path_ident (p : list string) : option string :=
  match p with
  | [] => None
  | [s] => Some s
  | _ :: r => path_ident r
  end.

(** scale-info `Path::namespace`: all segments but the last. *)
(** Used in special_indicators.rs:403-413 and 492-553. *)
Definition path_namespace (p : list string) : list string := removelast p.

(** Used in cards.rs:88-105. *)
Definition newline : string := String (ascii_of_N 10) EmptyString.

(** /repo/src/cards.rs:88-105 `Documented::collect_docs` (docs joined by newline). *)
Definition collect_docs (docs : list string) : string := join newline docs.

(** ** Registries *)

(** /repo/src/traits.rs:123-129 `ResolveType<E>`. [reg_bound] bounds the ids that can be
    resolved; it is only used to give the recursion of the model enough fuel. *)
Record registry (E : Type) := Registry {
  reg_bound : nat;
  resolve : N -> E -> (ty + reg_err) * E
}.
Arguments reg_bound {E} r.
Arguments resolve {E} r id e.

(** /repo/src/traits.rs:124-128 `resolve_ty`. *)
Definition resolve_ty {E} (r : registry E) (id : N) : M E reg_err ty :=
  fun p e =>
    match resolve r id e with
    | (inl t, e') => (Ok t, p, e')
    | (inr x, e') => (Err x, p, e')
    end.

(** scale-info 2.11.5 `PortableRegistry::resolve(id)` is `types.get(id as usize)`; ids
    are u32, so [N]. *)
(** Called in traits.rs:131-144. *)
Definition lookup (types : list ty) (id : N) : option ty :=
  if (id <? N.of_nat (List.length types))%N then nth_error types (N.to_nat id) else None.

(** /repo/src/traits.rs:131-144 `ResolveType for PortableRegistry`. *)
Definition portable_resolve {E} (types : list ty) (id : N) (e : E) : (ty + reg_err) * E :=
  match lookup types id with
  | Some t => (inl t, e)
  | None => (inr (RInternal (TypeNotResolved id)), e)
  end.

(** Called in traits.rs:131-144. *)
Definition portable {E} (types : list ty) : registry E :=
  Registry E (List.length types) (portable_resolve types).

(** ** /repo/src/special_indicators.rs enums *)

(** special_indicators.rs:213-237 `SpecialtyUnsignedInteger`. *)
Inductive spec_uint := SuNone | SuBalance | SuTip | SuTipAsset | SuNonce | SuSpecVersion | SuTxVersion.

(** special_indicators.rs:241-244 `SpecialtyStr`. *)
Inductive spec_str := SsNone | SsSpecName.

(** special_indicators.rs:252-256 `SpecialtyH256`. *)
Inductive spec_hash := ShNone | ShGenesis | ShBlock.

(** special_indicators.rs:344-358 `Hint`. *)
Inductive hint :=
| HNone | HCheckSpecVersion | HCheckTxVersion | HCheckGenesis | HCheckMortality | HCheckNonce
| HChargeAssetTxPayment | HChargeTransactionPayment
| HFieldBalance | HFieldNonce | HFieldSpecName | HFieldSpecVersion | HFieldTxVersion.

(** special_indicators.rs:485-488 `PalletSpecificItem`. *)
Inductive pitem := ItCall | ItEvent.

(** special_indicators.rs:484 `derive(PartialEq)`. *)
Definition pitem_eqb (a b : pitem) : bool :=
  match a, b with ItCall, ItCall | ItEvent, ItEvent => true | _, _ => false end.

(** `PerThing` kinds: sp_arithmetic 26 PerU16, Percent, Permill, Perbill, Perquintill. *)
(** Variants in special_indicators.rs:455-476 `SpecialtyTypeHinted`. *)
Inductive per_kind := KPerU16 | KPercent | KPermill | KPerbill | KPerquintill.

(** Known fixed-length byte strings that are decoded specially. *)
(** Variants in special_indicators.rs:455-476 `SpecialtyTypeHinted`. *)
Inductive fixed_kind :=
| KH160 | KH512 | KAccountId32
| KPubEd25519 | KPubSr25519 | KPubEcdsa
| KSigEd25519 | KSigSr25519 | KSigEcdsa.

(** special_indicators.rs:455-476 `SpecialtyTypeHinted`. *)
Inductive hinted :=
| HtNone
| HtFixed (k : fixed_kind)
| HtEra
| HtH256
| HtMultiSignature
| HtPalletSpecific (i : pitem)
| HtPer (k : per_kind)
| HtUncheckedExtrinsic.

(** ** /repo/src/cards.rs parsed data *)

(** cards.rs:33-42 `Info`. *)
Record info := Info { i_docs : string; i_path : list string }.

(** cards.rs:46-51 `Info::from_ty`. *)
Definition info_from_ty (t : ty) : info := Info (collect_docs (t_docs t)) (t_path t).

(** cards.rs:57-59 `Info::is_empty`. *)
Definition info_is_empty (i : info) : bool :=
  str_is_empty (i_docs i) && match i_path i with [] => true | _ => false end.

(** cards.rs derive(PartialEq) for `Info`. *)
(** cards.rs:32 `derive(Eq, PartialEq)`. *)
Definition info_eqb (a b : info) : bool :=
  String.eqb (i_docs a) (i_docs b) && strs_eqb (i_path a) (i_path b).

(** cards.rs:32 `derive(Eq, PartialEq)`. *)
Fixpoint infos_eqb (a b : list info) : bool :=
  match a, b with
  | [], [] => true
  | x :: a', y :: b' => info_eqb x y && infos_eqb a' b'
  | _, _ => false
  end.

(** /repo/src/additional_types.rs:13-16 `Era`. *)
Inductive era := Immortal | Mortal (period phase : N).

(** decoding_sci.rs:753-756 `FoundBitOrder`. *)
Inductive bit_order := Lsb0 | Msb0.

(** cards.rs:263-276 `Sequence`. *)
Inductive sequence :=
| SeqU (w : uwidth) (l : list N)
| SeqVecU8 (l : list bytes) (inner_element_info : list info).

(** cards.rs:109-115 `ExtendedData`, 225-230 `FieldData`, 234-238 `VariantData`,
    119-125 `PalletSpecificData`; polymorphic in the parsed data to allow nesting. *)
Record ext (P : Type) := Ext { x_data : P; x_info : list info }.
Arguments Ext {P} x_data x_info.
Arguments x_data {P} e.
Arguments x_info {P} e.

(** cards.rs:225-230 `FieldData`. *)
Record fdata (P : Type) := FData {
  fd_name : option string; fd_type_name : option string; fd_docs : string; fd_data : ext P }.
Arguments FData {P} fd_name fd_type_name fd_docs fd_data.
Arguments fd_name {P} f.
Arguments fd_type_name {P} f.
Arguments fd_docs {P} f.
Arguments fd_data {P} f.

(** cards.rs:234-238 `VariantData`. *)
Record vdata (P : Type) := VData { vd_name : string; vd_docs : string; vd_fields : list (fdata P) }.
Arguments VData {P} vd_name vd_docs vd_fields.
Arguments vd_name {P} v.
Arguments vd_docs {P} v.
Arguments vd_fields {P} v.

(** cards.rs:119-125 `PalletSpecificData`. *)
Record psdata (P : Type) := PSData {
  ps_info : info; ps_variant_docs : string; ps_pallet_name : string; ps_variant_name : string;
  ps_fields : list (fdata P) }.
Arguments PSData {P} ps_info ps_variant_docs ps_pallet_name ps_variant_name ps_fields.
Arguments ps_info {P} p.
Arguments ps_variant_docs {P} p.
Arguments ps_pallet_name {P} p.
Arguments ps_variant_name {P} p.
Arguments ps_fields {P} p.

(** cards.rs:280-354 `ParsedData`. Families of constructors with the same payload are
    merged: [DBitVec] stands for the 8 BitVec variants, [DHash] for H256/GenesisHash/
    BlockHash, [DFixed] for H160, H512, Id, Public* and Signature*, [DPer] for the five
    per-things, [DUInt] for PrimitiveU8..U128, [DInt] for PrimitiveI8..I128. *)
Inductive pdata :=
| DBitVec (store : uwidth) (order : bit_order) (bits : list bool)
| DHash (s : spec_hash) (h : bytes)
| DFixed (k : fixed_kind) (b : bytes)
| DPer (k : per_kind) (parts : N)
| DBool (b : bool)
| DChar (c : N)
| DUInt (w : uwidth) (value : N) (specialty : spec_uint)
| DU256 (value : N)
| DInt (w : uwidth) (value : Z)
| DI256 (value : Z)
| DText (text : bytes) (specialty : spec_str)
| DEra (e : era)
| DEmptyEnum
| DComposite (fields : list (fdata pdata))
| DVariant (v : vdata pdata)
| DCall (c : psdata pdata)
| DEvent (c : psdata pdata)
| DTuple (l : list (ext pdata))
| DSequence (element_info : list info) (s : sequence)
| DSequenceRaw (element_info : list info) (l : list pdata).

(** ** /repo/src/propagated.rs *)

(** propagated.rs:17-41 `SpecialtySet` and 98-106 `Checker`, flattened into one record. *)
Record checker := Checker { compact_at : option N; c_hint : hint; cycle_check : list N }.

(** propagated.rs:110-115 `Checker::new`. *)
Definition checker_new : checker := Checker None HNone [].

(** propagated.rs:54-60, 119-121 `reject_compact`. *)
Definition reject_compact (c : checker) : unit + int_err :=
  match compact_at c with
  | Some id => inr (UnexpectedCompactInsides id)
  | None => inl tt
  end.

(** propagated.rs:71-76, 124-126 `forget_hint`. *)
Definition forget_hint (c : checker) : checker :=
  Checker (compact_at c)
          (match c_hint c with HChargeAssetTxPayment => HChargeAssetTxPayment | _ => HNone end)
          (cycle_check c).

(** propagated.rs:173-180 `Checker::check_id`. *)
Definition check_id (c : checker) (id : N) : checker + int_err :=
  if existsb (N.eqb id) (cycle_check c) then inr (CyclicMetadata id)
  else inl (Checker (compact_at c) (c_hint c) (cycle_check c ++ [id])).

(** propagated.rs:164-166 `drop_cycle_check`. *)
Definition drop_cycle_check (c : checker) : checker := Checker (compact_at c) (c_hint c) [].

(** Assignments to `hint`, propagated.rs:63-68, 130-146. *)
Definition with_hint (c : checker) (h : hint) : checker :=
  Checker (compact_at c) h (cycle_check c).

(** Assignment to `compact_at`, decoding_sci.rs:1192 and 377. *)
Definition with_compact_at (c : checker) (id : N) : checker :=
  Checker (Some id) (c_hint c) (cycle_check c).

(** propagated.rs:192-200 `Propagated`. *)
Record propagated := Propagated { checker_of : checker; info_of : list info }.

(** propagated.rs:204-209 `Propagated::new`. *)
Definition propagated_new : propagated := Propagated checker_new [].

(** propagated.rs:226-231 `Propagated::with_checker`. *)
Definition with_checker (c : checker) : propagated := Propagated c [].

(** propagated.rs:275-279 `Propagated::add_info`. *)
Definition add_info (p : propagated) (i : info) : propagated :=
  if info_is_empty i then p else Propagated (checker_of p) (info_of p ++ [i]).
