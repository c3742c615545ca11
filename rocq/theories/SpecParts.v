(** Composed values and their parts (C73). *)
From Coq Require Import Relations.
From Verif Require Import Base Compact Types Indicators Decode Spec SpecLabels Api.
Local Open Scope list_scope.

Section Parts.
Variable types : list ty.
Variable data : bytes.

(** Decoding values of the types [ids] one after the other, each of them on its own with
    `decode_as_type_at_position`, from where the one before ended; up to the first failure. *)
Inductive one_by_one : list N -> nat -> outcome parser_err (list (ext pdata)) -> nat -> Prop :=
| OB_end p : one_by_one [] p (Ok []) p
| OB_fails id ids p y q : decode_at types data id p = (Err y, q) -> one_by_one (id :: ids) p (Err y) q
| OB_later id ids p x q y q' : decode_at types data id p = (Ok x, q) -> one_by_one ids q (Err y) q' ->
    one_by_one (id :: ids) p (Err y) q'
| OB_all id ids p x q l q' : decode_at types data id p = (Ok x, q) -> one_by_one ids q (Ok l) q' ->
    one_by_one (id :: ids) p (Ok (x :: l)) q'.

(** Reports a type that contains itself, truly. *)
Definition cyclic_error (y : parser_err) : Prop :=
  exists i, y = PRegistry (RInternal (CyclicMetadata i)) /\ clos_trans N (contains types) i i.

(** [composed made parts q' o q]: the outcome [o] at [q] is that of the parts, put together
    as [made] says, or their first failure; unless it reports a cycle. *)
Definition composed (made : list (ext pdata) -> ext pdata -> Prop)
    (parts : outcome parser_err (list (ext pdata))) (q' : nat) (o : outcome parser_err (ext pdata)) (q : nat) : Prop :=
  (exists y, o = Err y /\ cyclic_error y) \/
  q = q' /\
  match parts with
  | Ok l => exists x, o = Ok x /\ made l x
  | Err y => o = Err y
  | _ => False
  end.
End Parts.

(** The same data but for labels of integers, texts and hashes. *)
Definition same_but_labels (x y : ext pdata) : Prop :=
  unlabel (x_data x) = unlabel (x_data y) /\ x_info x = x_info y.

(** Fields with these contents. *)
Inductive filled : list field -> list (ext pdata) -> list (fdata pdata) -> Prop :=
| FI_end : filled [] [] []
| FI_field f fs x l y r : same_but_labels x y -> filled fs l r ->
    filled (f :: fs) (x :: l) (FData (f_name f) (f_type_name f) (docs_text (f_docs f)) y :: r).

Definition a_struct (t : ty) (fields : list field) (l : list (ext pdata)) (x : ext pdata) : Prop :=
  exists fs, x = Ext (DComposite fs) (own_info t) /\ filled fields l fs.
Definition a_tuple (t : ty) (l : list (ext pdata)) (x : ext pdata) : Prop :=
  exists l', x = Ext (DTuple l') (own_info t) /\ Forall2 same_but_labels l l'.
Definition an_enum (t : ty) (v : variant) (l : list (ext pdata)) (x : ext pdata) : Prop :=
  exists fs, x = Ext (DVariant (VData (v_name v) (docs_text (v_docs v)) fs)) (own_info t) /\ filled (v_fields v) l fs.
Definition a_call_or_event (t inner : ty) (pallet v : variant) (l : list (ext pdata)) (x : ext pdata) : Prop :=
  exists fs, filled (v_fields v) l fs /\
    let d := PSData (Info (docs_text (t_docs inner)) (t_path inner)) (docs_text (v_docs v)) (v_name pallet) (v_name v) fs in
    x = Ext (match classify t with SpItem ItEvent => DEvent d | _ => DCall d end) (own_info t).

(** Elements of arrays and vectors: of an element whose type is a wrapper (a struct with one
    field, or a compact), the wrapped value only. *)
Inductive unwrapped (types : list ty) : N -> pdata -> pdata -> Prop :=
| UW_plain id t d : lookup types id = Some t -> transparent t = None -> unwrapped types id d d
| UW_struct id t f fd d : lookup types id = Some t -> transparent t = Some (f_ty f, false) -> t_def t = TComposite [f] ->
    unwrapped types (f_ty f) (x_data (fd_data fd)) d -> unwrapped types id (DComposite [fd]) d
| UW_compact id t inner d d' : lookup types id = Some t -> transparent t = Some (inner, true) ->
    unwrapped types inner d d' -> unwrapped types id d d'.

(** A sequence of these elements of type [el]; [infos] is what the wrappers say. *)
Definition a_sequence (types : list ty) (t : ty) (el : N) (infos : list info) (l : list (ext pdata)) (x : ext pdata) : Prop :=
  exists ds, Forall2 (fun y d => unwrapped types el (x_data y) d) l ds /\ x = Ext (sequence_of infos ds) (own_info t).
