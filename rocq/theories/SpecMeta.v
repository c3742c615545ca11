(** Where V14 and V15 metadata keep the types of extrinsics and the runtime version (C33, C34). *)
From Verif Require Import Base Compact Types Indicators Decode Sign Meta Spec Api ApiSign.
Local Open Scope string_scope.
Local Open Scope list_scope.

(** V14 and V15 metadata as a [chain]: all properties of transactions and unchecked
    extrinsics apply to it. *)
Definition chain_v14 (m : metadata_v14) : chain v14_err :=
  Chain v14_err (v14_types m) (m_spec_name_version (metadata_of_v14 m)) (m_call_ty (metadata_of_v14 m))
    (m_signed_extensions (metadata_of_v14 m)) (m_extrinsic_type_params (metadata_of_v14 m))
    (m_extrinsic_version (metadata_of_v14 m)).
Definition chain_v15 (m : metadata_v15) : chain version_err :=
  Chain version_err (v15_types m) (m_spec_name_version (metadata_of_v15 m)) (m_call_ty (metadata_of_v15 m))
    (m_signed_extensions (metadata_of_v15 m)) (m_extrinsic_type_params (metadata_of_v15 m))
    (m_extrinsic_version (metadata_of_v15 m)).

(** ** Type parameters *)

(** The type of the last parameter with this name. *)
Definition named (name : string) (params : list (string * option N)) (id : N) : Prop :=
  exists pre post, params = pre ++ (name, Some id) :: post /\ ~ In name (map fst post).

(** There is no parameter of this name, or the last one has no type. *)
Definition missing (name : string) (params : list (string * option N)) : Prop :=
  ~ In name (map fst params) \/
  exists pre post, params = pre ++ (name, None) :: post /\ ~ In name (map fst post).

Inductive params_answer (l : list (string * option N)) : extrinsic_params + v14_err -> Prop :=
| PA_all a c s e : named "Address" l a -> named "Call" l c -> named "Signature" l s -> named "Extra" l e ->
    params_answer l (inl (ExtrinsicParams a c s e))
| PA_no_address : missing "Address" l -> params_answer l (inr NoAddressParam)
| PA_no_call a : named "Address" l a -> missing "Call" l -> params_answer l (inr NoCallParam)
| PA_no_extra a c : named "Address" l a -> named "Call" l c -> missing "Extra" l -> params_answer l (inr NoExtraParam)
| PA_no_signature a c e : named "Address" l a -> named "Call" l c -> named "Extra" l e -> missing "Signature" l ->
    params_answer l (inr NoSignatureParam).

Section Types.
Variable types : list ty.

(** Following wrappers (structs of one field and compacts without a special meaning) from
    [id]: the type reached, or the reason why there is none. *)
Inductive leads : list N -> option N -> N -> (N * ty) + int_err -> Prop :=
| LE_cycle seen cpt id : In id seen -> leads seen cpt id (inr (CyclicMetadata id))
| LE_unresolved seen cpt id : ~ In id seen -> lookup types id = None -> leads seen cpt id (inr (TypeNotResolved id))
| LE_end seen cpt id t : ~ In id seen -> lookup types id = Some t -> transparent t = None ->
    leads seen cpt id (inl (id, t))
| LE_field seen cpt id t inner r : ~ In id seen -> lookup types id = Some t -> transparent t = Some (inner, false) ->
    leads (seen ++ [id]) cpt inner r -> leads seen cpt id r
| LE_compact seen id t inner r : ~ In id seen -> lookup types id = Some t -> transparent t = Some (inner, true) ->
    leads (seen ++ [id]) (Some id) inner r -> leads seen None id r
| LE_nested seen outer id t inner : ~ In id seen -> lookup types id = Some t -> transparent t = Some (inner, true) ->
    leads seen (Some outer) id (inr (UnexpectedCompactInsides outer)).

(** What the definition of the extrinsic type says about its elements. *)
Inductive elements : typedef -> option N + int_err -> Prop :=
| EL_sequence i : elements (TSequence i) (inl (Some i))
| EL_struct f ft i : lookup types (f_ty f) = Some ft -> t_def ft = TSequence i -> elements (TComposite [f]) (inl (Some i))
| EL_unresolved f : lookup types (f_ty f) = None -> elements (TComposite [f]) (inr (TypeNotResolved (f_ty f)))
| EL_struct_other f ft : lookup types (f_ty f) = Some ft -> (forall i, t_def ft <> TSequence i) ->
    elements (TComposite [f]) (inl None)
| EL_other d : (forall i, d <> TSequence i) -> (forall f, d <> TComposite [f]) -> elements d (inl None).

Definition is_u8 (t : ty) : Prop := t_def t = TPrimitive (PrU U8).

Inductive v14_answer (ext_ty : N) : extrinsic_params + v14_err -> Prop :=
| V14_unresolved x : leads [] None ext_ty (inr x) -> v14_answer ext_ty (inr (ExtrinsicTypeNotResolved x))
| V14_unresolved_field id t x : leads [] None ext_ty (inl (id, t)) -> elements (t_def t) (inr x) ->
    v14_answer ext_ty (inr (ExtrinsicTypeNotResolved x))
| V14_unresolved_element id t i : leads [] None ext_ty (inl (id, t)) -> elements (t_def t) (inl (Some i)) ->
    lookup types i = None -> v14_answer ext_ty (inr (ExtrinsicTypeNotResolved (TypeNotResolved i)))
| V14_not_vector id t : leads [] None ext_ty (inl (id, t)) -> elements (t_def t) (inl None) ->
    v14_answer ext_ty (inr (UnexpectedExtrinsicType id))
| V14_not_u8 id t i it : leads [] None ext_ty (inl (id, t)) -> elements (t_def t) (inl (Some i)) ->
    lookup types i = Some it -> ~ is_u8 it -> v14_answer ext_ty (inr (UnexpectedExtrinsicType id))
| V14_params id t i it r : leads [] None ext_ty (inl (id, t)) -> elements (t_def t) (inl (Some i)) ->
    lookup types i = Some it -> is_u8 it -> params_answer (t_params t) r -> v14_answer ext_ty r.
End Types.

(** ** Runtime version *)

(** The last "Version" constant of the first pallet "System". *)
Definition system_pallet (pallets : list pallet) (p : pallet) : Prop :=
  exists pre post, pallets = pre ++ p :: post /\ pl_name p = "System" /\ ~ In "System" (map pl_name pre).
Definition version_in (p : pallet) (value : bytes) (id : N) : Prop :=
  exists pre post, pl_constants p = pre ++ Constant "Version" value id :: post /\ ~ In "Version" (map k_name post).

(** Labelled fields. *)
Definition version_of (f : fdata pdata) : list N :=
  match x_data (fd_data f) with DUInt _ v SuSpecVersion => [v] | _ => [] end.
Definition name_of (f : fdata pdata) : list bytes :=
  match x_data (fd_data f) with DText t SsSpecName => [t] | _ => [] end.
Definition spec_versions (l : list (fdata pdata)) : list N := flat_map version_of l.
Definition spec_names (l : list (fdata pdata)) : list bytes := flat_map name_of l.

(** The same by the names of the fields in the metadata. *)
Definition named_version (f : fdata pdata) : list N :=
  match fd_name f with
  | Some n => if String.eqb n "spec_version" then match x_data (fd_data f) with DUInt _ v _ => [v] | _ => [] end else []
  | None => []
  end.
Definition named_name (f : fdata pdata) : list bytes :=
  match fd_name f with
  | Some n => if String.eqb n "spec_name" then match x_data (fd_data f) with DText t _ => [t] | _ => [] end else []
  | None => []
  end.

Inductive fields_answer (l : list (fdata pdata)) : spec_name_version + version_err -> Prop :=
| FA_both v n : spec_versions l = [v] -> spec_names l = [n] ->
    fields_answer l (inl (SpecNameVersion (dec_string v) n))
| FA_no_version : spec_versions l = [] -> (List.length (spec_names l) <= 1)%nat ->
    fields_answer l (inr NoSpecVersionIdentifier)
| FA_no_name v : spec_versions l = [v] -> spec_names l = [] -> fields_answer l (inr NoSpecNameIdentifier)
| FA_version_twice pre f post v : l = pre ++ f :: post -> (List.length (spec_versions pre) = 1)%nat ->
    (List.length (spec_names pre) <= 1)%nat -> version_of f = [v] -> fields_answer l (inr SpecVersionIdentifierTwice)
| FA_name_twice pre f post n : l = pre ++ f :: post -> (List.length (spec_names pre) = 1)%nat ->
    (List.length (spec_versions pre) <= 1)%nat -> name_of f = [n] -> fields_answer l (inr SpecNameIdentifierTwice).

Inductive version_answer (types : list ty) (pallets : list pallet) : spec_name_version + version_err -> Prop :=
| VA_no_system : ~ In "System" (map pl_name pallets) -> version_answer types pallets (inr NoSystemPallet)
| VA_no_constant p : system_pallet pallets p -> ~ In "Version" (map k_name (pl_constants p)) ->
    version_answer types pallets (inr NoVersionInConstants)
| VA_not_decodable p value id y : system_pallet pallets p -> version_in p value id ->
    decode_all types value id = Err y -> version_answer types pallets (inr RuntimeVersionNotDecodeable)
| VA_format p value id x : system_pallet pallets p -> version_in p value id -> decode_all types value id = Ok x ->
    (forall l, x_data x <> DComposite l) -> version_answer types pallets (inr UnexpectedRuntimeVersionFormat)
| VA_fields p value id x l r : system_pallet pallets p -> version_in p value id -> decode_all types value id = Ok x ->
    x_data x = DComposite l -> fields_answer l r -> version_answer types pallets r.
