(** The public building blocks of the decoder (C59): the type inside single-field structs and
    compacts, and what a recognised type is at a place in the data. *)
From Verif Require Import Base Compact Types Indicators Decode Spec.
Local Open Scope string_scope.
Local Open Scope list_scope.

Section Husk.
Variable types : list ty.

(** Type information of an outer type comes first. *)
Definition outside (l : list info) (r : husked + reg_err) : husked + reg_err :=
  match r with inl x => inl (Husked (l ++ hu_info x) (hu_checker x) (hu_ty x) (hu_id x)) | inr x => inr x end.

(** [reaches seen cpt h id r]: looking for the type inside type [id], coming through types
    [seen], already inside the compact [cpt] (if any), with the label [h]. *)
Inductive reaches (seen : list N) (cpt : option N) (h : hint) (id : N) : husked + reg_err -> Prop :=
| R_repeated : In id seen -> reaches seen cpt h id (inr (RInternal (CyclicMetadata id)))
| R_unknown : ~ In id seen -> lookup types id = None -> reaches seen cpt h id (inr (RInternal (TypeNotResolved id)))
| R_here t : ~ In id seen -> lookup types id = Some t -> transparent t = None ->
    reaches seen cpt h id (inl (Husked (own_info t) (Checker cpt h (seen ++ [id])) t id))
| R_struct t f r : ~ In id seen -> lookup types id = Some t -> transparent t = Some (f_ty f, false) -> t_def t = TComposite [f] ->
    reaches (seen ++ [id]) cpt (or_label h (field_label f)) (f_ty f) r ->
    reaches seen cpt h id (outside (own_info t) r)
| R_nested t inner c : ~ In id seen -> lookup types id = Some t -> transparent t = Some (inner, true) -> cpt = Some c ->
    reaches seen cpt h id (inr (RInternal (UnexpectedCompactInsides c)))
| R_compact t inner r : ~ In id seen -> lookup types id = Some t -> transparent t = Some (inner, true) -> cpt = None ->
    reaches (seen ++ [id]) (Some id) h inner r -> reaches seen cpt h id (outside (own_info t) r).

(** What a signature field is, in the words of the interface. *)
Definition indicator (k : option fixed_kind) : sig_indicator :=
  match k with
  | Some KSigEcdsa => SigEcdsa | Some KSigEd25519 => SigEd25519 | Some KSigSr25519 => SigSr25519
  | _ => SigNone
  end.

(** A field that is a bare signature: named so, and an array of bytes of the right length
    inside. *)
Inductive signs (f : field) (k : fixed_kind) : Prop :=
| Signs name x len elem te : f_type_name f = Some name -> In (name, k) sig_names ->
    reaches [] None HNone (f_ty f) (inl x) -> t_def (hu_ty x) = TArray len elem ->
    lookup types elem = Some te -> t_def te = TPrimitive (PrU U8) -> len = N.of_nat (raw_len k) -> signs f k.

(** What type [t] is at a place where the next byte (if there is one) is [o], and how many
    bytes of it have been used to find out. *)
Inductive found (t : ty) (o : option N) : checked -> nat -> Prop :=
| F_plain : classify t = SpPlain -> found t o CNone 0
| F_raw k : classify t = SpRaw k -> found t o (CFixed k) 0
| F_hash : classify t = SpHash -> found t o CH256 0
| F_era : classify t = SpEra -> found t o CEra 0
| F_per k : classify t = SpPer k -> found t o (CPer k) 0
| F_signature vs i v f k : classify t = SpMultiSig -> t_def t = TVariant vs -> o = Some i -> by_index vs i = Some v ->
    v_fields v = [f] -> signs f k -> found t o (CFixed k) 1
| F_no_signature : classify t = SpMultiSig ->
    (forall vs i v f k, t_def t = TVariant vs -> o = Some i -> by_index vs i = Some v -> v_fields v = [f] ->
       ~ signs f k) -> found t o CNone 0
| F_item it vs i v f inner items : classify t = SpItem it -> t_def t = TVariant vs -> o = Some i -> by_index vs i = Some v ->
    v_fields v = [f] -> lookup types (f_ty f) = Some inner -> classify inner = SpItem it -> t_def inner = TVariant items ->
    found t o (CPalletSpecific (v_name v) (Info (docs_text (t_docs inner)) (t_path inner)) items it) 1
| F_no_item it : classify t = SpItem it ->
    (forall vs i v f inner items, t_def t = TVariant vs -> o = Some i -> by_index vs i = Some v -> v_fields v = [f] ->
       lookup types (f_ty f) = Some inner -> classify inner = SpItem it -> t_def inner <> TVariant items) -> found t o CNone 0.

(** The order of bits, by the name of the type that stands for it. *)
Inductive order_answer (order id : N) : bit_order + reg_err -> Prop :=
| OA_unknown : lookup types order = None -> order_answer order id (inr (RInternal (TypeNotResolved order)))
| OA_lsb t fs : lookup types order = Some t -> t_def t = TComposite fs -> List.last (t_path t) "" = "Lsb0" -> order_answer order id (inl Lsb0)
| OA_msb t fs : lookup types order = Some t -> t_def t = TComposite fs -> List.last (t_path t) "" = "Msb0" -> order_answer order id (inl Msb0)
| OA_other t : lookup types order = Some t ->
    (forall fs, t_def t = TComposite fs -> t_path t <> [] -> List.last (t_path t) "" <> "Lsb0" /\ List.last (t_path t) "" <> "Msb0") ->
    order_answer order id (inr (RInternal (NotBitOrderType id))).
End Husk.
