(** Memory that fails now and then, and readings that differ only in which enums were
    recognised as calls, events or bare signatures (C42). *)
From Verif Require Import Base Compact Types Spec SpecTrack SpecWf.
Local Open Scope list_scope.

(** [b] holds [data]; each single access gives the stored content (or the range error it
    gives in memory), or fails; the same access may fail once and succeed later. *)
Definition flaky_copy {E} (b : buffer E) (data : bytes) : Prop :=
  total_len b = List.length data /\
  forall p n e, fst (rd b p n e) = fst (rd (slice_buffer data) p n tt) \/
                exists c, fst (rd b p n e) = inr (BExternal c).

(** The same for types. *)
Definition flaky_registry {E} (r : registry E) (types : list ty) : Prop :=
  reg_bound r = List.length types /\
  forall id e, fst (resolve r id e) = fst (resolve (portable types) id tt) \/
               exists c, fst (resolve r id e) = inr (RExternal c).

(** A byte string inside single-field structs. *)
Inductive wraps : pdata -> bytes -> Prop :=
| wr_bytes i l : wraps (DSequence i (SeqU U8 l)) l
| wr_struct n t docs d i l : wraps d l -> wraps (DComposite [FData n t docs (Ext d i)]) l.

(** Type information as it is shown. *)
Definition shown (i : info) : list info :=
  match i with Info EmptyString [] => [] | _ => [i] end.

(** [folds x y]: [x] is [y], but some enums of [y] are recognised in [x]: an enum variant
    holding only a variant of another enum as a call or event, and an enum variant holding
    only bytes as a bare signature. *)
Inductive folds : pdata -> pdata -> Prop :=
| fo_same d : folds d d
| fo_struct l l' : Forall2 folds_field l l' -> folds (DComposite l) (DComposite l')
| fo_enum n docs l l' : Forall2 folds_field l l' -> folds (DVariant (VData n docs l)) (DVariant (VData n docs l'))
| fo_tuple l l' : Forall2 folds_ext l l' -> folds (DTuple l) (DTuple l')
| fo_vec i l l' : Forall2 folds l l' -> folds (DSequenceRaw i l) (DSequenceRaw i l')
| fo_call i docs p n l l' pdocs fn ft fdocs : Forall2 folds_field l l' ->
    folds (DCall (PSData i docs p n l))
          (DVariant (VData p pdocs [FData fn ft fdocs (Ext (DVariant (VData n docs l')) (shown i))]))
| fo_event i docs p n l l' pdocs fn ft fdocs : Forall2 folds_field l l' ->
    folds (DEvent (PSData i docs p n l))
          (DVariant (VData p pdocs [FData fn ft fdocs (Ext (DVariant (VData n docs l')) (shown i))]))
| fo_signature k l n docs fn ft fdocs d i : wraps d l ->
    folds (DFixed k l) (DVariant (VData n docs [FData fn ft fdocs (Ext d i)]))
with folds_ext : ext pdata -> ext pdata -> Prop :=
| fe d d' i : folds d d' -> folds_ext (Ext d i) (Ext d' i)
with folds_field : fdata pdata -> fdata pdata -> Prop :=
| ff n t docs d d' i : folds d d' -> folds_field (FData n t docs (Ext d i)) (FData n t docs (Ext d' i)).

(** [x] and [x'] are foldings of the same reading. *)
Definition same_reading (x x' : ext pdata) : Prop :=
  exists y, folds_ext x y /\ folds_ext x' y.

(** A value of an enum without variants, which no value can have, occurs in the data. *)
Inductive empty_item : pdata -> Prop :=
| ei_here : empty_item DEmptyEnum
| ei_struct l f : In f l -> empty_item (x_data (fd_data f)) -> empty_item (DComposite l)
| ei_enum v f : In f (vd_fields v) -> empty_item (x_data (fd_data f)) -> empty_item (DVariant v)
| ei_call c f : In f (ps_fields c) -> empty_item (x_data (fd_data f)) -> empty_item (DCall c)
| ei_event c f : In f (ps_fields c) -> empty_item (x_data (fd_data f)) -> empty_item (DEvent c)
| ei_tuple l x : In x l -> empty_item (x_data x) -> empty_item (DTuple l)
| ei_vec i l d : In d l -> empty_item d -> empty_item (DSequenceRaw i l).

Section Types.
Variable types : list ty.

(** Fields recognised as bare signatures are arrays of plain bytes, possibly inside
    single-field structs that are not recognised by their path. *)
Definition plain_signatures : Prop :=
  forall id t vs v f s, lookup types id = Some t -> t_def t = TVariant vs -> In v vs ->
    v_fields v = [f] -> variant_sig types t v = Some s ->
    exists l el te, straight types (f_ty f :: l) el /\ lookup types el = Some te /\
      def_of te = Some (TPrimitive (PrU U8)).

(** No pallet has an empty enum of calls or events. *)
Definition pallets_have_items : Prop :=
  forall id t vs v inner items, lookup types id = Some t -> t_def t = TVariant vs -> In v vs ->
    pallet_items types t v = Some (inner, items) -> items <> [].

(** A set of types, with the types they mention, among which there are no types named like
    multi-signatures, calls or events. *)
Definition unrecognised (S : N -> Prop) : Prop :=
  forall id t, S id -> lookup types id = Some t ->
    (forall j, mentions t j -> S j) /\
    match classify t with SpMultiSig | SpItem _ => False | _ => True end.
End Types.
