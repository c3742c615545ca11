(** Type ids are only names (C70): what it means to renumber the types. *)
From Coq Require Import Relations.
From Verif Require Import Base Types Decode Sign Storage Unchecked Spec.
Local Open Scope list_scope.

Section Renumber.
(** The new number of each type. *)
Variable f : N -> N.

(** ** Types *)
Definition renumber_field (x : field) : field := Field (f_name x) (f (f_ty x)) (f_type_name x) (f_docs x).
Definition renumber_variant (v : variant) : variant :=
  Variant (v_name v) (map renumber_field (v_fields v)) (v_index v) (v_docs v).
Definition renumber_def (d : typedef) : typedef :=
  match d with
  | TComposite fs => TComposite (map renumber_field fs)
  | TVariant vs => TVariant (map renumber_variant vs)
  | TSequence el => TSequence (f el)
  | TArray n el => TArray n (f el)
  | TTuple els => TTuple (map f els)
  | TPrimitive p => TPrimitive p
  | TCompact inner => TCompact (f inner)
  | TBitSequence store order => TBitSequence (f store) (f order)
  end.

(** [t'] is [t] with its types renumbered; type parameters do not matter. *)
Definition renumbered (t t' : ty) : Prop :=
  t_path t' = t_path t /\ t_docs t' = t_docs t /\ t_def t' = renumber_def (t_def t).

(** ** Errors: a type is called by its new number. *)
Definition renumber_int (x : int_err) : int_err :=
  match x with
  | CyclicMetadata id => CyclicMetadata (f id)
  | ExtrinsicNoCallParam => ExtrinsicNoCallParam
  | NotBitOrderType id => NotBitOrderType (f id)
  | NotBitStoreType id => NotBitStoreType (f id)
  | TypeNotResolved id => TypeNotResolved (f id)
  | UnexpectedCompactInsides id => UnexpectedCompactInsides (f id)
  | UnexpectedExtrinsicTypeR id => UnexpectedExtrinsicTypeR (f id)
  end.
Definition renumber_reg (x : reg_err) : reg_err :=
  match x with RExternal c => RExternal c | RInternal y => RInternal (renumber_int y) end.
Definition renumber_err (x : parser_err) : parser_err :=
  match x with PRegistry y => PRegistry (renumber_reg y) | y => y end.
Definition renumber_signable {ME} (x : signable_err ME) : signable_err ME :=
  match x with Parsing y => Parsing (renumber_err y) | NotACall id => NotACall (f id) | y => y end.
Definition renumber_unchecked {ME} (x : unchecked_err ME) : unchecked_err ME :=
  match x with UParsing y => UParsing (renumber_err y) | UnexpectedCallTy id => UnexpectedCallTy (f id) | y => y end.
Definition renumber_storage (x : storage_err) : storage_err :=
  match x with ParsingKey y => ParsingKey (renumber_err y) | ParsingValue y => ParsingValue (renumber_err y) | y => y end.

(** ** Results: only the unparsed parts of storage keys name a type. *)
Definition renumber_outcome {X A} (fx : X -> X) (fa : A -> A) (o : outcome X A) : outcome X A :=
  match o with Ok a => Ok (fa a) | Err x => Err (fx x) | Panic => Panic | OutOfFuel => OutOfFuel end.
Definition same {A} (a : A) : A := a.
(** Position and memory stay as they are. *)
Definition renumber_result {E X A} (fx : X -> X) (fa : A -> A) (x : outcome X A * nat * E) : outcome X A * nat * E :=
  let '(o, q, e) := x in (renumber_outcome fx fa o, q, e).

Definition renumber_transaction {ME} (t : transaction_parsed ME) : transaction_parsed ME :=
  TransactionParsed (match tp_call t with inl d => inl d | inr x => inr (renumber_signable x) end) (tp_extensions t).

Definition renumber_part (k : key_part) : key_part :=
  match k with KHash h s id => KHash h s (f id) | KParsed x => KParsed x end.
Definition renumber_key (k : key_data) : key_data :=
  match k with KPlain => KPlain | KSingle x => KSingle (renumber_part x) | KTuple l i => KTuple (map renumber_part l) i end.
Definition renumber_entry_value (s : storage) : storage := Storage (renumber_key (st_key s)) (st_value s) (st_docs s).

(** ** Registries and metadata *)

(** What [r2] says of the new number of a type in [S] is what [r1] says of the type, renumbered. *)
Definition renumbers {E} (S : N -> Prop) (r1 r2 : registry E) : Prop := forall id e, S id ->
  match resolve r1 id e with
  | (inl t, e') => exists t', resolve r2 (f id) e = (inl t', e') /\ renumbered t t'
  | (inr x, e') => resolve r2 (f id) e = (inr (renumber_reg x), e')
  end.

(** Different types in [S] get different numbers. *)
Definition distinct (S : N -> Prop) : Prop := forall i j, S i -> S j -> f i = f j -> i = j.

(** The types a type contains without an enum or a vector in between. *)
Definition direct (t : ty) : list N :=
  match def_of t with
  | Some (TComposite fs) => map f_ty fs
  | Some (TTuple ids) => ids
  | Some (TArray _ el) => [el]
  | Some (TCompact inner) => [inner]
  | _ => []
  end.
Definition directly {E} (r : registry E) (i j : N) : Prop :=
  exists e t e', resolve r i e = (inl t, e') /\ In j (direct t).

(** Types may be merged, but a type in [S] never with another one it contains in this way. *)
Definition kept_apart {E} (S : N -> Prop) (r : registry E) : Prop :=
  forall i j, S i -> clos_trans N (directly r) i j -> f i = f j -> i = j.

Definition renumber_ext (x : ext_meta) : ext_meta := ExtMeta (em_identifier x) (f (em_ty x)) (f (em_additional x)).
Definition renumber_params (p : extrinsic_params) : extrinsic_params :=
  ExtrinsicParams (f (ep_address p)) (f (ep_call p)) (f (ep_signature p)) (f (ep_extra p)).
Definition renumber_entry (x : entry_type) : entry_type :=
  match x with EPlain v => EPlain (f v) | EMap hs k v => EMap hs (f k) (f v) end.

Definition on_left {A B : Type} (g : A -> A) (x : A + B) : A + B := match x with inl a => inl (g a) | inr y => inr y end.

End Renumber.

From Verif Require Import SpecReach.

(** Two metadata that differ in the numbers of the types; [S] contains the types of the call, the
    extensions and the parts of an extrinsic, and all they need. *)
Record renumbered_metadata {E ME} (f : N -> N) (S : N -> Prop) (m1 m2 : metadata E ME) : Prop := RenumberedMetadata {
  rm_types : renumbers f S (m_types m1) (m_types m2);
  rm_closed : closed (m_types m1) S;
  rm_apart : kept_apart f S (m_types m1);
  rm_spec : m_spec_name_version m2 = m_spec_name_version m1;
  rm_call : m_call_ty m2 = on_left f (m_call_ty m1);
  rm_extensions : m_signed_extensions m2 = on_left (map (renumber_ext f)) (m_signed_extensions m1);
  rm_params : m_extrinsic_type_params m2 = on_left (renumber_params f) (m_extrinsic_type_params m1);
  rm_version : m_extrinsic_version m2 = m_extrinsic_version m1;
  rm_call_in : forall id, m_call_ty m1 = inl id -> S id;
  rm_extensions_in : forall l x, m_signed_extensions m1 = inl l -> In x l -> S (em_ty x) /\ S (em_additional x);
  rm_params_in : forall x, m_extrinsic_type_params m1 = inl x ->
    S (ep_address x) /\ S (ep_call x) /\ S (ep_signature x) /\ S (ep_extra x)
}.

(** *** In memory: a whole registry in another order *)
From Verif Require Import ApiSign.

Definition renumber_ty (f : N -> N) (t : ty) : ty := Ty (t_path t) (t_params t) (renumber_def f (t_def t)) (t_docs t).

(** [types2] has the types of [types1], numbered by [f]. *)
Definition reordered (f : N -> N) (types1 types2 : list ty) : Prop :=
  (forall i j, f i = f j -> i = j) /\
  forall id, lookup types2 (f id) = option_map (renumber_ty f) (lookup types1 id).

(** [types2] has, under the number given by [f], what [types1] has; duplicates may have been merged,
    and then no type of [types2] contains itself without an enum or a vector in between. *)
Definition merged (f : N -> N) (types1 types2 : list ty) : Prop :=
  acyclic types2 /\
  forall id, match lookup types1 id with
             | Some t => exists t', lookup types2 (f id) = Some t' /\ renumbered f t t'
             | None => lookup types2 (f id) = None
             end.

Definition renumber_chain {ME} (f : N -> N) (types2 : list ty) (c : ApiSign.chain ME) : ApiSign.chain ME :=
  Chain ME types2 (ch_spec c) (on_left f (ch_call c)) (on_left (map (renumber_ext f)) (ch_extensions c))
    (on_left (renumber_params f) (ch_params c)) (ch_version c).
