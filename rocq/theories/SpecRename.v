(** C55: names only label. Two registries that differ in names, type names, variant names,
    documentation, type parameters and the paths nobody recognises. *)
From Verif Require Import Base Compact Types Spec.
Local Open Scope list_scope.
Local Open Scope string_scope.

(** How much of the names is compared: three functions, applied to both sides. With
    constant functions no name matters; with identities the names must agree. *)
Record reading := Reading {
  field_name_as : option string -> option string;
  type_name_as : option string -> option string;
  variant_name_as : string -> string }.

Definition no_names : reading := Reading (fun _ => None) (fun _ => None) (fun _ => "").
Definition all_names : reading := Reading (fun x => x) (fun x => x) (fun x => x).

(** Last segments of paths that select a decoding of their own. *)
Definition known_types : list string :=
  ["AccountId32"; "Call"; "RuntimeCall"; "Era"; "Event"; "RuntimeEvent"; "AccountId20"; "H160"; "H256"; "H512";
   "MultiSignature"; "Perbill"; "Percent"; "Permill"; "Perquintill"; "PerU16"; "Public"; "Signature";
   "UncheckedExtrinsic"; "Lsb0"; "Msb0"].

(** The path of a type as far as it matters: none, unless its last segment is known. *)
Definition known_path (path : list string) : option (list string) :=
  if existsb (String.eqb (last path "")) known_types then Some path else None.

(** Names of signature types, which matter in a MultiSignature. *)
Definition signature_name (type_name : option string) : option string :=
  match type_name with
  | Some n => if existsb (String.eqb n) ["ecdsa::Signature"; "ed25519::Signature"; "sr25519::Signature"]
              then Some n else None
  | None => None
  end.

Section Reading.
Variable g : reading.

Definition same_field (f1 f2 : field) : Prop :=
  f_ty f1 = f_ty f2 /\
  field_name_as g (f_name f1) = field_name_as g (f_name f2) /\
  type_name_as g (f_type_name f1) = type_name_as g (f_type_name f2) /\
  signature_name (f_type_name f1) = signature_name (f_type_name f2).

Definition same_variant (v1 v2 : variant) : Prop :=
  v_index v1 = v_index v2 /\
  variant_name_as g (v_name v1) = variant_name_as g (v_name v2) /\
  Forall2 same_field (v_fields v1) (v_fields v2).

Definition same_shape (d1 d2 : typedef) : Prop :=
  match d1, d2 with
  | TComposite f1, TComposite f2 => Forall2 same_field f1 f2
  | TVariant v1, TVariant v2 => Forall2 same_variant v1 v2
  | TComposite _, _ | TVariant _, _ => False
  | _, _ => d1 = d2
  end.

Definition same_type (t1 t2 : ty) : Prop :=
  known_path (t_path t1) = known_path (t_path t2) /\ same_shape (t_def t1) (t_def t2).

(** The same types in the same places, whatever their names. *)
Definition same_types (types1 types2 : list ty) : Prop := Forall2 same_type types1 types2.

(** What was decoded: no labels, no type information, no docs; names as read. Sequences
    are lists, however they are collected. *)
Fixpoint bare (d : pdata) : pdata :=
  let ex (x : ext pdata) := match x with Ext d _ => Ext (bare d) [] end in
  let fd (f : fdata pdata) :=
    match f with FData n t _ (Ext d _) => FData (field_name_as g n) (type_name_as g t) "" (Ext (bare d) []) end in
  let number w n := DUInt w n SuNone in
  match d with
  | DHash _ h => DHash ShNone h
  | DUInt w n _ => DUInt w n SuNone
  | DText t _ => DText t SsNone
  | DComposite fs => DComposite (map fd fs)
  | DVariant (VData n _ fs) => DVariant (VData (variant_name_as g n) "" (map fd fs))
  | DCall (PSData _ _ p n fs) => DCall (PSData (Info "" []) "" (variant_name_as g p) (variant_name_as g n) (map fd fs))
  | DEvent (PSData _ _ p n fs) => DEvent (PSData (Info "" []) "" (variant_name_as g p) (variant_name_as g n) (map fd fs))
  | DTuple l => DTuple (map ex l)
  | DSequence _ (SeqU w l) => DSequenceRaw [] (map (number w) l)
  | DSequence _ (SeqVecU8 l _) => DSequenceRaw [] (map (fun a => DSequenceRaw [] (map (number U8) a)) l)
  | DSequenceRaw _ l => DSequenceRaw [] (map bare l)
  | d => d
  end.
End Reading.
