(** Parsed data without labels (C12), and without documentation (C13). *)
From Verif Require Import Base Compact Types Spec.
Local Open Scope list_scope.

(** Everything but the labels of integers, texts and hashes. *)
Fixpoint unlabel (d : pdata) : pdata :=
  let ex (x : ext pdata) := match x with Ext d i => Ext (unlabel d) i end in
  let fd (f : fdata pdata) := match f with FData n t docs (Ext d i) => FData n t docs (Ext (unlabel d) i) end in
  match d with
  | DHash _ h => DHash ShNone h
  | DUInt w n _ => DUInt w n SuNone
  | DText t _ => DText t SsNone
  | DComposite fs => DComposite (map fd fs)
  | DVariant (VData n docs fs) => DVariant (VData n docs (map fd fs))
  | DCall (PSData i docs p n fs) => DCall (PSData i docs p n (map fd fs))
  | DEvent (PSData i docs p n fs) => DEvent (PSData i docs p n (map fd fs))
  | DTuple l => DTuple (map ex l)
  | DSequenceRaw i l => DSequenceRaw i (map unlabel l)
  | d => d
  end.

(** Everything but documentation: docs are emptied, and type information that says
    nothing then disappears. *)
Definition undoc_infos (l : list info) : list info :=
  map (fun i => Info EmptyString (i_path i))
      (filter (fun i => match i_path i with [] => false | _ => true end) l).

Definition undoc_seq (s : sequence) : sequence :=
  match s with
  | SeqU w l => SeqU w l
  | SeqVecU8 l i => SeqVecU8 l (undoc_infos i)
  end.

Fixpoint undoc (d : pdata) : pdata :=
  let ex (x : ext pdata) := match x with Ext d i => Ext (undoc d) (undoc_infos i) end in
  let fd (f : fdata pdata) :=
    match f with FData n t _ (Ext d i) => FData n t EmptyString (Ext (undoc d) (undoc_infos i)) end in
  match d with
  | DComposite fs => DComposite (map fd fs)
  | DVariant (VData n _ fs) => DVariant (VData n EmptyString (map fd fs))
  | DCall (PSData i _ p n fs) => DCall (PSData (Info EmptyString (i_path i)) EmptyString p n (map fd fs))
  | DEvent (PSData i _ p n fs) => DEvent (PSData (Info EmptyString (i_path i)) EmptyString p n (map fd fs))
  | DTuple l => DTuple (map ex l)
  | DSequence i s => DSequence (undoc_infos i) (undoc_seq s)
  | DSequenceRaw i l => DSequenceRaw (undoc_infos i) (map undoc l)
  | d => d
  end.

Definition undoc_ext (x : ext pdata) : ext pdata := Ext (undoc (x_data x)) (undoc_infos (x_info x)).

(** A registry without documentation. *)
Definition undoc_field (f : field) : field := Field (f_name f) (f_ty f) (f_type_name f) [].
Definition undoc_variant (v : variant) : variant :=
  Variant (v_name v) (map undoc_field (v_fields v)) (v_index v) [].
Definition undoc_ty (t : ty) : ty :=
  Ty (t_path t) (t_params t)
     (match t_def t with
      | TComposite fs => TComposite (map undoc_field fs)
      | TVariant vs => TVariant (map undoc_variant vs)
      | d => d
      end) [].
