(** Which types of a registry matter for a value (C50). *)
From Verif Require Import Base Types Spec.
Local Open Scope list_scope.

(** The types named in a definition. *)
Definition mentions (d : typedef) : list N :=
  match d with
  | TComposite fs => map f_ty fs
  | TVariant vs => flat_map (fun v => map f_ty (v_fields v)) vs
  | TSequence el => [el]
  | TArray _ el => [el]
  | TTuple ids => ids
  | TPrimitive _ => []
  | TCompact inner => [inner]
  | TBitSequence store order => [store; order]
  end.

(** Types that are recognised by their path are not looked into, except for the element
    type of an array (to see whether a signature is made of bytes). *)
Definition needs (t : ty) : list N :=
  match def_of t, t_def t with
  | Some d, _ => mentions d
  | None, TArray _ el => [el]
  | None, _ => []
  end.

(** [S] contains with every type all types it needs. *)
Definition closed {E} (r : registry E) (S : N -> Prop) : Prop :=
  forall id e t e', S id -> resolve r id e = (inl t, e') -> Forall S (needs t).

(** The registries give the same answers for [S]. *)
Definition same_on {E} (S : N -> Prop) (r1 r2 : registry E) : Prop :=
  forall id e, S id -> resolve r1 id e = resolve r2 id e.

(** *** Metadata *)
From Verif Require Import Sign Storage.

(** Two metadata that differ only in types outside of [S]; [S] contains the types of the
    call, the extensions and the parts of a signed extrinsic. *)
Record same_metadata {E ME} (S : N -> Prop) (m1 m2 : metadata E ME) : Prop := SameMetadata {
  sm_types : same_on S (m_types m1) (m_types m2);
  sm_closed : closed (m_types m1) S;
  sm_spec : m_spec_name_version m1 = m_spec_name_version m2;
  sm_call : m_call_ty m1 = m_call_ty m2;
  sm_extensions : m_signed_extensions m1 = m_signed_extensions m2;
  sm_params : m_extrinsic_type_params m1 = m_extrinsic_type_params m2;
  sm_version : m_extrinsic_version m1 = m_extrinsic_version m2;
  sm_call_in : forall id, m_call_ty m1 = inl id -> S id;
  sm_extensions_in : forall l x, m_signed_extensions m1 = inl l -> In x l -> S (em_ty x) /\ S (em_additional x);
  sm_params_in : forall x, m_extrinsic_type_params m1 = inl x ->
    S (ep_address x) /\ S (ep_call x) /\ S (ep_signature x) /\ S (ep_extra x)
}.

(** The types of a storage entry: for several hashers also the elements of the key tuple. *)
Definition entry_in {E} (r : registry E) (S : N -> Prop) (ty : entry_type) : Prop :=
  match ty with
  | EPlain value => S value
  | EMap hashers key value => S key /\ S value /\
      forall e t e' ids, resolve r key e = (inl t, e') -> t_def t = TTuple ids -> Forall S ids
  end.
