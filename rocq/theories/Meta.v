(** `AsMetadata` / `AsCompleteMetadata` for `RuntimeMetadataV14` and `RuntimeMetadataV15`:
    /repo/src/traits.rs:146-473. No proofs here. *)
From Verif Require Import Base Compact Types Indicators Decode Sign.
Local Open Scope string_scope.
Local Open Scope list_scope.

(** error.rs:284-293 `MetaVersionErrorPallets`. *)
Inductive version_err :=
| NoSpecNameIdentifier | NoSpecVersionIdentifier | NoSystemPallet | NoVersionInConstants
| RuntimeVersionNotDecodeable | SpecNameIdentifierTwice | SpecVersionIdentifierTwice
| UnexpectedRuntimeVersionFormat.

(** error.rs:239-247 `MetaStructureErrorV14`. *)
Inductive v14_err :=
| ExtrinsicTypeNotResolved (x : int_err)
| NoAddressParam | NoCallParam | NoExtraParam | NoSignatureParam
| UnexpectedExtrinsicType (id : N)
| V14Version (x : version_err).

(** frame_metadata 18: the parts of pallet metadata that are used. *)
(** Used in traits.rs:347-383. *)
Record constant := Constant { k_name : string; k_value : bytes; k_ty : N }.
Record pallet := Pallet { pl_name : string; pl_constants : list constant }.

(** frame_metadata 18 v14: the parts of the metadata that are used. *)
(** Used in traits.rs:146-246. *)
Record metadata_v14 := MetadataV14 {
  v14_types : list ty;
  v14_pallets : list pallet;
  v14_extrinsic_ty : N;
  v14_extrinsic_version : N;
  v14_signed_extensions : list ext_meta
}.

(** frame_metadata 18 v15. *)
(** Used in traits.rs:248-300. *)
Record metadata_v15 := MetadataV15 {
  v15_types : list ty;
  v15_pallets : list pallet;
  v15_params : extrinsic_params;
  v15_extrinsic_version : N;
  v15_signed_extensions : list ext_meta
}.

(** traits.rs:347-376 `version_constant_data_and_ty_v14/v15`: first pallet named "System",
    its last constant named "Version". *)
Definition version_constant (pallets : list pallet) : (bytes * N) + version_err :=
  match find (fun p => String.eqb (pl_name p) "System") pallets with
  | None => inr NoSystemPallet
  | Some p =>
      match fold_left (fun acc c => if String.eqb (k_name c) "Version"
                                    then Some (k_value c, k_ty c) else acc)
                      (pl_constants p) None with
      | Some x => inl x
      | None => inr NoVersionInConstants
      end
  end.

(** traits.rs:386-473 `spec_name_version_from_runtime_version_data`: loop over fields. *)
Fixpoint version_fields (l : list (fdata pdata)) (v : option string) (n : option bytes)
  : (option string * option bytes) + version_err :=
  match l with
  | [] => inl (v, n)
  | f :: rest =>
      match x_data (fd_data f) with
      | DUInt _ value SuSpecVersion =>
          match v with
          | None => version_fields rest (Some (dec_string value)) n
          | Some _ => inr SpecVersionIdentifierTwice
          end
      | DText text SsSpecName =>
          match n with
          | None => version_fields rest v (Some text)
          | Some _ => inr SpecNameIdentifierTwice
          end
      | _ => version_fields rest v n
      end
  end.

(** traits.rs:386-473 `spec_name_version_from_runtime_version_data`. *)
Definition spec_name_version_from_data (d : pdata) : spec_name_version + version_err :=
  match d with
  | DComposite fields =>
      match version_fields fields None None with
      | inr e => inr e
      | inl (None, _) => inr NoSpecVersionIdentifier
      | inl (Some _, None) => inr NoSpecNameIdentifier
      | inl (Some v, Some n) => inl (SpecNameVersion v n)
      end
  | _ => inr UnexpectedRuntimeVersionFormat
  end.

(** traits.rs:155-170 and 257-270 `spec_name_version`. A panic or an exhausted fuel of
    the model inside `decode_all_as_type` cannot be represented in the result type;
    they are mapped to [RuntimeVersionNotDecodeable] and excluded by the theorems that
    say that they do not occur. *)
Definition spec_name_version_of (types : list ty) (pallets : list pallet)
  : spec_name_version + version_err :=
  match version_constant pallets with
  | inr e => inr e
  | inl (value, id) =>
      match fst (decode_all_as_type (slice_buffer value) (portable types) id tt) with
      | Ok x => spec_name_version_from_data (x_data x)
      | _ => inr RuntimeVersionNotDecodeable
      end
  end.

(** traits.rs:303-332 `process_extrinsic_type_params`: the last parameter with each name
    counts. *)
Definition last_param (name : string) (l : list (string * option N)) : option N :=
  fold_left (fun acc p => if String.eqb (fst p) name then snd p else acc) l None.

(** traits.rs:303-332 `process_extrinsic_type_params`. *)
Definition process_params (l : list (string * option N)) : extrinsic_params + v14_err :=
  match last_param "Address" l with
  | None => inr NoAddressParam
  | Some a =>
      match last_param "Call" l with
      | None => inr NoCallParam
      | Some c =>
          match last_param "Extra" l with
          | None => inr NoExtraParam
          | Some e =>
              match last_param "Signature" l with
              | None => inr NoSignatureParam
              | Some s => inl (ExtrinsicParams a c s e)
              end
          end
      end
  end.

(** `self.types.resolve_ty(..)?`, traits.rs:202, 220, 224. *)
Definition resolve_pure (types : list ty) (id : N) : ty + v14_err :=
  match lookup types id with
  | Some t => inl t
  | None => inr (ExtrinsicTypeNotResolved (TypeNotResolved id))
  end.

(** traits.rs:190-241 `extrinsic_type_params` for V14. *)
Definition v14_type_params (m : metadata_v14) : extrinsic_params + v14_err :=
  let types := v14_types m in
  match fst (fst (husk_type (portable types) (v14_extrinsic_ty m) checker_new 0 tt)) with
  | Err (RInternal x) => inr (ExtrinsicTypeNotResolved x)
  | Err (RExternal _) | Panic | OutOfFuel =>
      (* not reachable: in-memory registry, sufficient fuel *)
      inr (UnexpectedExtrinsicType 0)
  | Ok hu =>
      let finish elem :=
        match resolve_pure types elem with
        | inr e => inr e
        | inl et =>
            match t_def et with
            | TPrimitive (PrU U8) => process_params (t_params (hu_ty hu))
            | _ => inr (UnexpectedExtrinsicType (hu_id hu))
            end
        end in
      match t_def (hu_ty hu) with
      | TSequence elem => finish elem
      | TComposite [f] =>
          match resolve_pure types (f_ty f) with
          | inr e => inr e
          | inl ft =>
              match t_def ft with
              | TSequence elem => finish elem
              | _ => inr (UnexpectedExtrinsicType (hu_id hu))
              end
          end
      | _ => inr (UnexpectedExtrinsicType (hu_id hu))
      end
  end.

(** Packs the two sides of a `Result`, traits.rs:146-300. *)
Definition sum_map {A B X Y} (f : A -> B) (g : X -> Y) (s : A + X) : B + Y :=
  match s with inl a => inl (f a) | inr x => inr (g x) end.

(** traits.rs:146-245. *)
Definition metadata_of_v14 (m : metadata_v14) : metadata unit v14_err :=
  Metadata unit v14_err
    (portable (v14_types m))
    (sum_map id V14Version (spec_name_version_of (v14_types m) (v14_pallets m)))
    (sum_map ep_call id (v14_type_params m))
    (inl (v14_signed_extensions m))
    (v14_type_params m)
    (inl (v14_extrinsic_version m)).

(** traits.rs:248-300. *)
Definition metadata_of_v15 (m : metadata_v15) : metadata unit version_err :=
  Metadata unit version_err
    (portable (v15_types m))
    (spec_name_version_of (v15_types m) (v15_pallets m))
    (inl (ep_call (v15_params m)))
    (inl (v15_signed_extensions m))
    (inl (v15_params m))
    (inl (v15_extrinsic_version m)).
