(** C83: calls with the usual kinds of arguments, calls within calls among them, are shown with
    exactly these arguments. *)
From Coq Require Import Lia.
From Verif Require Import Base Compact Types Indicators Decode Sign Balance Cards Spec SpecCards SpecSee SpecTransfer SpecAccount SpecOrder Api ApiSign
  ProofBase ProofCompact ProofLeaf ProofWf ProofCor ProofSign2 ProofTransfer PropTransfer PropAccount PropEvents.
From Verif Require ProofSpec ProofPrefixFree ProofShow ProofStorage PropSign PropSee PropBatch Address PropAddress.
Local Open Scope string_scope.
Local Open Scope list_scope.

(** ** Induction *)

Lemma arg_induction (P : arg -> Prop) :
  (forall who, P (Account who)) -> (forall h, P (Hash h)) -> (forall packed n, P (Money packed n)) -> (forall packed w n, P (Number packed w n)) ->
  (forall b, P (Truth b)) -> (forall l, P (Bytes l)) -> (forall l, P (Fixed l)) -> (forall n name, P (Choice n name)) -> (forall n name a, P a -> P (Given n name a)) ->
  (forall l, Forall (fun x => P (snd x)) l -> P (Struct l)) -> (forall l, Forall P l -> P (Several l)) ->
  (forall i j pallet name l, Forall (fun x => P (snd x)) l -> P (Order i j pallet name l)) ->
  (forall n name l, Forall (fun x => P (snd x)) l -> P (Made n name l)) -> (forall a, P a -> P (Inside a)) ->
  (forall n name l, Forall P l -> P (Numbered n name l)) -> (forall l, Forall P l -> P (Tuple l)) ->
  (forall k l, P (Raw k l)) -> (forall packed k n, P (Part packed k n)) -> (forall w n, P (Packed w n)) -> forall a, P a.
Proof.
  intros H1 H2 H3 H4 H5 H6 H6' H7 H8 H9 H10 H11 H12 H13 H14 H15 H16 H17 H18. fix IH 1.
  assert (A : forall l : list (string * arg), Forall (fun x => P (snd x)) l).
  { fix IHl 1. intros [|x l]; constructor; [apply IH|apply IHl]. }
  assert (B : forall l : list arg, Forall P l).
  { fix IHl 1. intros [|x l]; constructor; [apply IH|apply IHl]. }
  intros [who|h|packed n|packed w n|b|l|l|n name|n name a|l|l|i j pallet name l|n name l|a|n name l|l|k l|packed k n|w n].
  - apply H1.
  - apply H2.
  - apply H3.
  - apply H4.
  - apply H5.
  - apply H6.
  - apply H6'.
  - apply H7.
  - apply H8, IH.
  - apply H9, A.
  - apply H10. induction l as [|a l IHl]; constructor; [apply IH|exact IHl].
  - apply H11, A.
  - apply H12, A.
  - apply H13, IH.
  - apply H14, B.
  - apply H15, B.
  - apply H16.
  - apply H17.
  - apply H18.
Qed.

(** ** Lines *)

Lemma call_prints info docs pallet name fs l : fields_print fs l ->
  prints (DCall (PSData info docs pallet name fs)) (fun b58 specs _ =>
    ("Pallet: " ++ pallet)%string :: ("  Call: " ++ name)%string ::
    map (append "    ") (field_lines l b58 specs (str_in pallet PALLETS_BALANCE_VALID))).
Proof.
  intros H b58 icon specs cn bits inf k u. cbn [card]. unfold card_pallet_specific. cbn [map ps_fields ps_pallet_name ps_variant_name].
  assert (Hs : forall u, card_variant_fields (card b58 icon specs cn) fs (k + 2) u = card_field_set (card b58 icon specs cn) 0 fs (k + 2) u).
  { intros u'. destruct fs as [|f [|g fs] ]; [reflexivity| |reflexivity]. destruct l as [|[n L] l]; [contradiction H|]. destruct H as (Hn & _). cbn [card_variant_fields]. rewrite Hn. reflexivity. }
  rewrite Hs, (field_set_prints _ l) by exact H. rewrite show_at. f_equal. rewrite show_at, Nat.mul_add_distr_l, blanks_more. f_equal.
  rewrite (indent_more k 2). reflexivity.
Qed.

Lemma call_full info docs pallet name fs : fields_full fs -> nothing_hidden (DCall (PSData info docs pallet name fs)).
Proof. intros H. split; [exact I|]. cbn [ps_fields]. induction H as [|f fs H _ IH]; [exact I|split; assumption]. Qed.

Lemma truth_prints (b : bool) : prints (DBool b) (fun _ _ _ => [("Bool: " ++ if b then "true" else "false")%string]).
Proof. intros b58 icon specs cn bits inf k u. cbn [card map]. rewrite show_at. destruct b; reflexivity. Qed.

Lemma bytes_prints inf0 l : l <> [] -> prints (DSequence inf0 (SeqU U8 l)) (fun _ _ _ => [bytes_line l]).
Proof.
  intros Hne b58 icon specs cn bits inf k u. cbn [card card_sequence map]. rewrite show_at. unfold seq_u8_card, bytes_line. destruct l as [|b l]; [congruence|].
  unfold show. cbn [ec_card ec_indent]. destruct (text_of (b :: l)); reflexivity.
Qed.

Lemma nothing_prints inf0 : prints (DSequenceRaw inf0 []) (fun _ _ _ => [bytes_line []]).
Proof. intros b58 icon specs cn bits inf k u. cbn [card card_elements map List.length]. rewrite show_at. reflexivity. Qed.

Lemma width_same w : uint_name w = width_name w. Proof. destruct w; reflexivity. Qed.

Lemma fits_of w n : (n < 2 ^ (8 * N.of_nat (usize w)))%N -> fits w n = true. Proof. apply N.ltb_lt. Qed.

(** ** Values *)

Lemma made_prints name docs fs l : fs <> [] -> fields_print fs l ->
  prints (DVariant (VData name docs fs)) (fun b58 specs u => "Enum" :: ("  Enum Variant Name: " ++ name)%string :: map (append "    ") (field_lines l b58 specs u)).
Proof.
  intros Hne H b58 icon specs cn bits inf k u. cbn [card map vd_fields vd_name].
  assert (E : card_variant_fields (card b58 icon specs cn) fs (k + 2) u = card_field_set (card b58 icon specs cn) 0 fs (k + 2) u).
  { destruct fs as [|f [|g r] ]; [contradiction|destruct l as [|[n L] [|] ]; try contradiction H; destruct H as (Hn & _); unfold card_variant_fields; rewrite Hn; reflexivity|reflexivity]. }
  rewrite E, (field_set_prints _ l) by exact H.
  rewrite show_at. f_equal. rewrite show_at, Nat.mul_add_distr_l, blanks_more. f_equal. rewrite (indent_more k 2). reflexivity.
Qed.

Lemma inside_prints f L : fd_name f = None -> prints (x_data (fd_data f)) L -> prints (DComposite [f]) L.
Proof. intros Hn Hp b58 icon specs cn bits inf k u. cbn [card]. rewrite Hn. unfold card_unnamed_single_field. apply Hp. Qed.

(** Values that are numbered. *)
Definition numbered_lines (Ls : list lines) (b58 : fixed_kind -> bytes -> N -> string) (specs : short_specs) (u : bool) : N -> list string :=
  (fix from (l : list lines) (i : N) : list string :=
    match l with [] => [] | L :: l' => ("Field Number: " ++ dec_string i)%string :: map (append "  ") (L b58 specs u) ++ from l' (i + 1)%N end) Ls.

Fixpoint unnamed_print (fs : list (fdata pdata)) (l : list lines) : Prop :=
  match fs, l with
  | [], [] => True
  | f :: fs', L :: l' => fd_name f = None /\ prints (x_data (fd_data f)) L /\ unnamed_print fs' l'
  | _, _ => False
  end.

Lemma unnamed_prints fs : forall l b58 icon specs name bits i k u, unnamed_print fs l ->
  map (show bits) (card_field_set (card b58 icon specs name) i fs k u) = map (append (blanks (2 * k))) (numbered_lines l b58 specs u (N.of_nat i + 1)).
Proof.
  induction fs as [|f fs IH]; intros [|L l] b58 icon specs name bits i k u H; try contradiction H; [reflexivity|].
  destruct H as (Hn & Hp & Hr). cbn [card_field_set]. rewrite Hn. cbn [numbered_lines]. fold (numbered_lines l b58 specs u (N.of_nat i + 1 + 1)).
  cbn [map]. rewrite !map_app, (IH l), show_at by exact Hr.
  replace (N.of_nat i + 1 + 1)%N with (N.of_nat (i + 1) + 1)%N by lia.
  unfold card_ext_with. rewrite Hp, indent_more.
  replace (show bits (ECard (PcFieldNumber (i + 1)) 0 [])) with ("Field Number: " ++ dec_string (N.of_nat i + 1))%string; [cbn [map app]; reflexivity|].
  replace (N.of_nat i + 1)%N with (N.of_nat (i + 1)) by lia. reflexivity.
Qed.

Lemma numbered_prints name docs fs l : (2 <= List.length fs)%nat -> unnamed_print fs l ->
  prints (DVariant (VData name docs fs)) (fun b58 specs u => "Enum" :: ("  Enum Variant Name: " ++ name)%string :: map (append "    ") (numbered_lines l b58 specs u 1)).
Proof.
  intros Hn H b58 icon specs cn bits inf k u. cbn [card map vd_fields vd_name].
  assert (E : card_variant_fields (card b58 icon specs cn) fs (k + 2) u = card_field_set (card b58 icon specs cn) 0 fs (k + 2) u).
  { destruct fs as [|f [|g r] ]; cbn [List.length] in Hn; try lia. reflexivity. }
  rewrite E, (unnamed_prints _ l) by exact H.
  rewrite show_at. f_equal. rewrite show_at, Nat.mul_add_distr_l, blanks_more. f_equal. rewrite (indent_more k 2). reflexivity.
Qed.

Fixpoint parts_print (xs : list (ext pdata)) (l : list lines) : Prop :=
  match xs, l with
  | [], [] => True
  | x :: xs', L :: l' => prints (x_data x) L /\ parts_print xs' l'
  | _, _ => False
  end.

Lemma parts_prints xs : forall l b58 icon specs name bits k u, parts_print xs l ->
  map (show bits) (card_tuple (card b58 icon specs name) xs k u) = map (append (blanks (2 * k))) (flat_map (fun L => L b58 specs u) l).
Proof.
  induction xs as [|x xs IH]; intros [|L l] b58 icon specs name bits k u H; try contradiction H; [reflexivity|].
  destruct H as (Hp & Hr). cbn [card_tuple flat_map]. rewrite !map_app, (IH l) by exact Hr. unfold card_ext_with. rewrite Hp. reflexivity.
Qed.

Lemma tuple_prints xs l : xs <> [] -> parts_print xs l ->
  prints (DTuple xs) (fun b58 specs u => ("Tuple: " ++ dec_string (N.of_nat (List.length xs)) ++ " element(s)")%string :: map (append "  ") (flat_map (fun L => L b58 specs u) l)).
Proof.
  intros Hne H b58 icon specs cn bits inf k u. destruct xs as [|x xs]; [contradiction Hne; reflexivity|].
  cbn [card map]. rewrite show_at. f_equal. rewrite (parts_prints _ l) by exact H. apply indent_more.
Qed.

Lemma tuple_full xs : Forall (fun x => nothing_hidden (x_data x)) xs -> nothing_hidden (DTuple xs).
Proof. intros H. split; [exact I|]. induction H as [|x xs H _ IH]; [exact I|split; assumption]. Qed.

Section Values.
Variable types : list ty.

(** As [shown_as], but perhaps not so as an element of a vector, where structs with one value vanish. *)
Definition can_see (h : hint) (id : N) (bs : bytes) (L : lines) : Prop :=
  exists v d, enc types false id v = Some bs /\ (exists info, view types false h id v = Some (d, info)) /\ nothing_hidden d /\ prints d L.

Lemma show_see h id bs L : can_show types h id bs L -> can_see h id bs L.
Proof. intros (v & d & E & V & N & P). exists v, d. exact (conj E (conj (V false) (conj N P))). Qed.

Lemma see_show h id t bs L : lookup types id = Some t -> transparent t = None -> can_see h id bs L -> can_show types h id bs L.
Proof.
  intros Hl Ht (v & d & E & (info & V) & N & P). exists v, d. refine (conj E (conj _ (conj N P))).
  intros e. exists info. rewrite (PropBatch.view_plain types e h id v t Hl Ht). exact V.
Qed.

Inductive fields_see : list field -> list bytes -> list (string * lines) -> Prop :=
| FV_nil : fields_see [] [] []
| FV_cons f fs n bs l L r : f_name f = Some n -> can_see (field_label f) (f_ty f) bs L -> fields_see fs l r -> fields_see (f :: fs) (bs :: l) ((n, L) :: r).

Lemma fields_seen fs l r n : fields_see fs l r -> exists vs fds,
  enc_list (fun f => enc types false (f_ty f)) fs vs = Some (List.concat l) /\
  view_list (fun f v => option_map (field_form f) (view types false (or_label (pass_label HNone n) (field_label f)) (f_ty f) v)) fs vs = Some fds /\
  fields_full fds /\ fields_print fds r /\ List.length fds = List.length fs.
Proof.
  intros H. induction H as [|f fs m bs l L r Hn (v & d & E & (info & V0) & N & P) _ (vs & fds & E' & V' & N' & P' & S)].
  - exists [], []. repeat split. constructor.
  - exists (v :: vs), (field_form f (d, info) :: fds). rewrite enc_list_cons, view_list_cons, E, E', V', pass_none.
    cbn [or_label]. rewrite V0. refine (conj eq_refl (conj eq_refl (conj _ (conj _ _)))).
    + constructor; assumption.
    + cbn [fields_print]. refine (conj Hn (conj P P')).
    + cbn [List.length]. rewrite S. reflexivity.
Qed.

Lemma see_struct id fs l r : ordinary types id (TComposite fs) -> (2 <= List.length fs)%nat -> fields_see fs l r ->
  can_see HNone id (List.concat l) (fun b58 specs u =>
    ("Struct: " ++ dec_string (N.of_nat (List.length fs)) ++ " field(s)")%string :: map (append "  ") (field_lines r b58 specs u)).
Proof.
  intros (t & Hl & Hc & Hd) Hn H. destruct (fields_seen fs l r (List.length fs) H) as (vs & fds & E & V & F & P & S).
  exists (VStruct vs), (DComposite fds). refine (conj _ (conj _ (conj (struct_full fds F) _))).
  - cbn [enc]. rewrite Hl. unfold def_of. rewrite Hc, Hd. exact E.
  - exists (own_info t). cbn [view]. rewrite Hl. unfold def_of. rewrite Hc, Hd, V. reflexivity.
  - rewrite <- S. apply struct_prints; [rewrite S; exact Hn|exact P].
Qed.

(** A variant with named values. *)
Lemma see_made h id vs n name fs l r : ordinary types id (TVariant vs) -> has_variant vs n name fs -> (n < 256)%N -> fs <> [] -> fields_see fs l r ->
  can_see h id (n :: List.concat l) (fun b58 specs u => "Enum" :: ("  Enum Variant Name: " ++ name)%string :: map (append "    ") (field_lines r b58 specs u)).
Proof.
  intros (t & Hl & Hc & Hd) (v & Hi & Hn & Hf) Hlt Hne H. apply N.ltb_lt in Hlt.
  destruct (fields_seen fs l r (List.length fs) H) as (xs & fds & E & V & F & P & S).
  assert (Hsig : variant_sig types t v = None) by (unfold variant_sig; rewrite Hc; reflexivity).
  assert (Hpi : pallet_items types t v = None).
  { unfold pallet_items. rewrite Hc. destruct (v_fields v) as [|f [|g q] ]; try reflexivity. destruct (lookup types (f_ty f)) as [inner|]; [|reflexivity]. destruct (t_def inner); reflexivity. }
  exists (VEnum n xs), (DVariant (VData name (docs_text (v_docs v)) fds)). refine (conj _ (conj _ (conj (variant_full _ _ _ F) _))).
  - cbn [enc]. rewrite Hl. unfold def_of. rewrite Hc, Hd, Hi, Hsig, Hpi, Hf, Hlt, E. reflexivity.
  - exists (own_info t). cbn [view]. rewrite Hl. unfold def_of. rewrite Hc, Hd, Hi, Hf, V, Hn. reflexivity.
  - apply made_prints; [|exact P]. intros ->. destruct fs; [contradiction|discriminate S].
Qed.

(** A variant with several values without names. *)
Inductive unnamed_see : list field -> list bytes -> list lines -> Prop :=
| UV_nil : unnamed_see [] [] []
| UV_cons f fs bs l L r : f_name f = None -> can_see (field_label f) (f_ty f) bs L -> unnamed_see fs l r -> unnamed_see (f :: fs) (bs :: l) (L :: r).

Lemma unnamed_seen fs l r n : unnamed_see fs l r -> exists vs fds,
  enc_list (fun f => enc types false (f_ty f)) fs vs = Some (List.concat l) /\
  view_list (fun f v => option_map (field_form f) (view types false (or_label (pass_label HNone n) (field_label f)) (f_ty f) v)) fs vs = Some fds /\
  fields_full fds /\ unnamed_print fds r /\ List.length fds = List.length fs.
Proof.
  intros H. induction H as [|f fs bs l L r Hn (v & d & E & (info & V0) & N & P) _ (vs & fds & E' & V' & N' & P' & S)].
  - exists [], []. repeat split. constructor.
  - exists (v :: vs), (field_form f (d, info) :: fds). rewrite enc_list_cons, view_list_cons, E, E', V', pass_none.
    cbn [or_label]. rewrite V0. refine (conj eq_refl (conj eq_refl (conj _ (conj _ _)))).
    + constructor; assumption.
    + cbn [unnamed_print]. refine (conj Hn (conj P P')).
    + cbn [List.length]. rewrite S. reflexivity.
Qed.

Lemma see_numbered h id vs n name fs l r : ordinary types id (TVariant vs) -> has_variant vs n name fs -> (n < 256)%N -> (2 <= List.length fs)%nat -> unnamed_see fs l r ->
  can_see h id (n :: List.concat l) (fun b58 specs u => "Enum" :: ("  Enum Variant Name: " ++ name)%string :: map (append "    ") (numbered_lines r b58 specs u 1)).
Proof.
  intros (t & Hl & Hc & Hd) (v & Hi & Hn & Hf) Hlt Hne H. apply N.ltb_lt in Hlt.
  destruct (unnamed_seen fs l r (List.length fs) H) as (xs & fds & E & V & F & P & S).
  assert (Hsig : variant_sig types t v = None) by (unfold variant_sig; rewrite Hc; reflexivity).
  assert (Hpi : pallet_items types t v = None).
  { unfold pallet_items. rewrite Hf. destruct fs as [|f [|g q] ]; cbn [List.length] in Hne; try lia. reflexivity. }
  exists (VEnum n xs), (DVariant (VData name (docs_text (v_docs v)) fds)). refine (conj _ (conj _ (conj (variant_full _ _ _ F) _))).
  - cbn [enc]. rewrite Hl. unfold def_of. rewrite Hc, Hd, Hi, Hsig, Hpi, Hf, Hlt, E. reflexivity.
  - exists (own_info t). cbn [view]. rewrite Hl. unfold def_of. rewrite Hc, Hd, Hi, Hf, V, Hn. reflexivity.
  - apply numbered_prints; [rewrite S; exact Hne|exact P].
Qed.

(** Tuples. *)
Inductive each_see : list N -> list bytes -> list lines -> Prop :=
| EV_nil : each_see [] [] []
| EV_cons i ids t bs l L r : lookup types i = Some t -> can_see (path_label t) i bs L -> each_see ids l r -> each_see (i :: ids) (bs :: l) (L :: r).

Lemma each_seen ids l r n : each_see ids l r -> exists vs xs,
  enc_list (enc types false) ids vs = Some (List.concat l) /\
  view_list (fun i v => match lookup types i with
                        | Some ti => option_map (fun x => Ext (fst x) (snd x)) (view types false (or_label (pass_label HNone n) (path_label ti)) i v)
                        | None => None
                        end) ids vs = Some xs /\
  Forall (fun x => nothing_hidden (x_data x)) xs /\ parts_print xs r /\ List.length xs = List.length ids.
Proof.
  intros H. induction H as [|i ids t bs l L r Ht (v & d & E & (info & V0) & N & P) _ (vs & xs & E' & V' & N' & P' & S)].
  - exists [], []. repeat split. constructor.
  - exists (v :: vs), (Ext d info :: xs). rewrite enc_list_cons, view_list_cons, E, E', V', pass_none, Ht.
    cbn [or_label]. rewrite V0. refine (conj eq_refl (conj eq_refl (conj _ (conj _ _)))).
    + constructor; assumption.
    + cbn [parts_print]. exact (conj P P').
    + cbn [List.length]. rewrite S. reflexivity.
Qed.

Lemma see_tuple id ids l r : ordinary types id (TTuple ids) -> ids <> [] -> each_see ids l r ->
  can_see HNone id (List.concat l) (fun b58 specs u =>
    ("Tuple: " ++ dec_string (N.of_nat (List.length ids)) ++ " element(s)")%string :: map (append "  ") (flat_map (fun L => L b58 specs u) r)).
Proof.
  intros (t & Hl & Hc & Hd) Hne H. destruct (each_seen ids l r (List.length ids) H) as (vs & xs & E & V & F & P & S).
  exists (VTuple vs), (DTuple xs). refine (conj _ (conj _ (conj (tuple_full xs F) _))).
  - cbn [enc]. rewrite Hl. unfold def_of. rewrite Hc, Hd. exact E.
  - exists (own_info t). cbn [view]. rewrite Hl. unfold def_of. rewrite Hc, Hd, V. reflexivity.
  - rewrite <- S. apply tuple_prints; [|exact P]. intros X. rewrite X in S. destruct ids; [contradiction Hne; reflexivity|discriminate S].
Qed.

Lemma see_inside h id f bs L : ordinary types id (TComposite [f]) -> f_name f = None ->
  can_see (match h with HNone => field_label f | _ => h end) (f_ty f) bs L -> can_see h id bs L.
Proof.
  intros (t & Hl & Hc & Hd) Hfn (v & d & E & (info & V) & N & P).
  exists (VStruct [v]), (DComposite [field_form f (d, info)]). refine (conj _ (conj _ (conj _ _))).
  - cbn [enc]. rewrite Hl. unfold def_of. rewrite Hc, Hd, enc_list_cons, E. cbn [enc_list option_map]. rewrite app_nil_r. reflexivity.
  - exists (own_info t). cbn [view]. rewrite Hl. unfold def_of. rewrite Hc, Hd. cbn [List.length]. rewrite view_list_cons.
    change (or_label (pass_label h 1) (field_label f)) with (match h with HNone => field_label f | _ => h end). rewrite V. reflexivity.
  - apply struct_full. constructor; [exact N|constructor].
  - exact (inside_prints (field_form f (d, info)) L Hfn P).
Qed.

Lemma show_raw h id k l : recognised types id (SpRaw k) -> is_bytes l -> List.length l = raw_len k -> can_see h id l (fun b58 specs _ => [raw_line b58 specs k l]).
Proof.
  intros (t & Hl & Hc) Hb Hn. exists (VRaw l), (DFixed k l). refine (conj _ (conj _ (conj (conj I I) _))).
  - cbn [enc]. rewrite Hl, Hc. unfold guard. rewrite (is_bytesb_ok l Hb), Hn, Nat.eqb_refl. reflexivity.
  - exists (own_info t). cbn [view]. rewrite Hl, Hc. reflexivity.
  - intros b58 icon specs cn bits inf q u. cbn [card map fixed_card]. rewrite show_at. destruct k; reflexivity.
Qed.

Lemma part_fits k n : (n < whole k)%N -> fits (part_width k) n = true.
Proof. intros H. apply N.ltb_lt. destruct k; cbn in *; lia. Qed.

Lemma part_prints k n : prints (DPer k n) (fun _ _ _ => [(part_name k ++ ": " ++ dec_string n)%string]).
Proof. intros b58 icon specs cn bits inf q u. cbn [card map]. rewrite show_at. destruct k; reflexivity. Qed.

Lemma show_part h id (packed : bool) k n :
  (if packed then exists j, ordinary types id (TCompact j) /\ recognised types j (SpPer k) else recognised types id (SpPer k)) -> (n < whole k)%N ->
  can_see h id (if packed then compact_enc n else le_bytes (usize (part_width k)) n) (fun _ _ _ => [(part_name k ++ ": " ++ dec_string n)%string]).
Proof.
  intros H Hn. assert (Hm : N.min n (whole k) = n) by lia. pose proof (part_fits k n Hn) as Hf. assert (Hle : (n <=? whole k)%N = true) by (apply N.leb_le; lia). destruct packed.
  - destruct H as (j & (t & Hl & Hc & Hd) & (t' & Hl' & Hc')). exists (VCompact (VNum n)), (DPer k n). refine (conj _ (conj _ (conj (conj Hn I) (part_prints k n)))).
    + cbn [enc]. rewrite Hl. unfold def_of. rewrite Hc, Hd. cbn [enc]. rewrite Hl', Hc'. unfold guard. rewrite Hf. reflexivity.
    + exists (own_info t ++ own_info t'). cbn [view]. rewrite Hl. unfold def_of. rewrite Hc, Hd. cbn [view]. rewrite Hl', Hc', Hm. reflexivity.
  - destruct H as (t & Hl & Hc). exists (VNum n), (DPer k n). refine (conj _ (conj _ (conj (conj Hn I) (part_prints k n)))).
    + cbn [enc]. rewrite Hl, Hc. unfold guard. rewrite Hle. reflexivity.
    + exists (own_info t). cbn [view]. rewrite Hl, Hc, Hm. reflexivity.
Qed.

Lemma show_packed id w n : (exists j, ordinary types id (TCompact j) /\ wrapped_number types w j) -> fits w n = true ->
  can_see HNone id (compact_enc n) (fun _ _ _ => [(uint_name w ++ ": " ++ dec_string n)%string]).
Proof.
  intros (j & (t & Hl & Hc & Hd) & (f & (t' & Hl' & Hc' & Hd') & Hfn & Hlb & (t2 & Hl2 & Hc2 & Hd2))) Hf.
  exists (VCompact (VStruct [VNum n])), (DComposite [field_form f (DUInt w n SuNone, own_info t2)]). refine (conj _ (conj _ (conj _ _))).
  - cbn [enc]. rewrite Hl. unfold def_of. rewrite Hc, Hd. cbn [enc]. rewrite Hl'. unfold def_of. rewrite Hc', Hd', enc_list_cons. cbn [enc]. rewrite Hl2. unfold def_of. rewrite Hc2, Hd2.
    unfold guard. rewrite Hf. cbn [List.length Nat.leb andb enc_list]. rewrite app_nil_r. reflexivity.
  - exists (own_info t ++ own_info t'). cbn [view]. rewrite Hl. unfold def_of. rewrite Hc, Hd. cbn [view]. rewrite Hl'. unfold def_of. rewrite Hc', Hd', view_list_cons, pass_none, Hlb.
    cbn [or_label view]. rewrite Hl2. unfold def_of. rewrite Hc2, Hd2. reflexivity.
  - apply struct_full. constructor; [split; exact I|constructor].
  - apply inside_prints; [exact Hfn|]. apply number_prints.
Qed.

Lemma show_money id n : compact_number types U128 id -> fits U128 n = true ->
  can_show types HFieldBalance id (compact_enc n) (fun _ specs u => [if u then ("Balance: " ++ money specs n)%string else ("Balance Raw: " ++ dec_string n)%string]).
Proof.
  intros (j & (t & Hl & Hc & Hd) & (t' & Hl' & Hc' & Hd')) Hf.
  exists (VCompact (VNum n)), (DUInt U128 n SuBalance). refine (conj _ (conj _ (conj (conj I I) (amount_prints U128 n)))).
  - cbn [enc]. rewrite Hl. unfold def_of. rewrite Hc, Hd. cbn [enc]. rewrite Hl'. unfold def_of. rewrite Hc', Hd'. unfold guard. rewrite Hf. reflexivity.
  - intros e. exists (own_info t ++ own_info t'). cbn [view]. rewrite Hl. unfold def_of. rewrite Hc, Hd. cbn [view]. rewrite Hl'. unfold def_of. rewrite Hc', Hd'. reflexivity.
Qed.

Lemma show_truth h id (b : bool) : ordinary types id (TPrimitive PrBool) -> can_show types h id [if b then 1%N else 0%N] (fun _ _ _ => [("Bool: " ++ if b then "true" else "false")%string]).
Proof.
  intros (t & Hl & Hc & Hd). exists (VBool b), (DBool b). refine (conj _ (conj _ (conj (conj I I) (truth_prints b)))).
  - cbn [enc]. rewrite Hl. unfold def_of. rewrite Hc, Hd. destruct b; reflexivity.
  - intros e. exists (own_info t). cbn [view]. rewrite Hl. reflexivity.
Qed.

Lemma show_bytes h id el l : ordinary types id (TSequence el) -> number_type types U8 el -> is_bytes l -> (N.of_nat (List.length l) < 2 ^ 32)%N ->
  can_show types h id (compact_enc (N.of_nat (List.length l)) ++ l) (fun _ _ _ => [bytes_line l]).
Proof.
  intros (t & Hl & Hc & Hd) Hel Hb Hn. apply PropBatch.u32 in Hn. destruct (bytes_array types el l Hel Hb) as (E & V & inf & P).
  exists (VSeq (map VNum l)), (sequence_of inf (map (fun b => DUInt U8 b SuNone) l)).
  assert (Hv : forall e, exists info, view types e h id (VSeq (map VNum l)) = Some (sequence_of inf (map (fun b => DUInt U8 b SuNone) l), info)).
  { intros e. exists (own_info t). cbn [view]. rewrite Hl. unfold def_of. rewrite Hc, Hd, P, V. reflexivity. }
  refine (conj _ (conj Hv _)).
  - cbn [enc]. rewrite Hl. unfold def_of. rewrite Hc, Hd, map_length, Hn, E. reflexivity.
  - destruct l as [|b l].
    + split; [split; exact I|apply nothing_prints].
    + rewrite collected by discriminate. split; [split; exact I|apply bytes_prints; discriminate].
Qed.

Lemma show_fixed h id el l : ordinary types id (TArray (N.of_nat (List.length l)) el) -> number_type types U8 el -> is_bytes l ->
  can_show types h id l (fun _ _ _ => [bytes_line l]).
Proof.
  intros (t & Hl & Hc & Hd) Hel Hb. destruct (bytes_array types el l Hel Hb) as (E & V & inf & P).
  exists (VArr (map VNum l)), (sequence_of inf (map (fun b => DUInt U8 b SuNone) l)).
  assert (Hv : forall e, exists info, view types e h id (VArr (map VNum l)) = Some (sequence_of inf (map (fun b => DUInt U8 b SuNone) l), info)).
  { intros e. exists (own_info t). cbn [view]. rewrite Hl. unfold def_of. rewrite Hc, Hd, P, V. reflexivity. }
  refine (conj _ (conj Hv _)).
  - cbn [enc]. rewrite Hl. unfold def_of. rewrite Hc, Hd, map_length, N.eqb_refl, E. reflexivity.
  - destruct l as [|b l].
    + split; [split; exact I|apply nothing_prints].
    + rewrite collected by discriminate. split; [split; exact I|apply bytes_prints; discriminate].
Qed.

(** Any value in an enum. *)
Lemma show_given h id l n name f bs L : ordinary types id (TVariant l) -> has_variant l n name [f] -> (n < 256)%N ->
  f_name f = None -> can_see (field_label f) (f_ty f) bs L ->
  can_see h id (n :: bs) (fun b58 specs u => "Enum" :: ("  Enum Variant Name: " ++ name)%string :: map (append "    ") (L b58 specs u)).
Proof.
  intros (t & Hl & Hc & Hd) (v & Hi & Hn & Hf) Hlt Hfn (vn & d & E & (info & V0) & N & P). apply N.ltb_lt in Hlt.
  assert (Hsig : variant_sig types t v = None) by (unfold variant_sig; rewrite Hc; reflexivity).
  assert (Hpi : pallet_items types t v = None).
  { unfold pallet_items. rewrite Hf, Hc. destruct (lookup types (f_ty f)) as [inner|]; [|reflexivity]. destruct (t_def inner); reflexivity. }
  exists (VEnum n [vn]), (DVariant (VData name (docs_text (v_docs v)) [field_form f (d, info)])). refine (conj _ (conj _ (conj _ _))).
  - cbn [enc]. rewrite Hl. unfold def_of. rewrite Hc, Hd, Hi, Hsig, Hpi, Hf, Hlt, enc_list_cons, E. cbn [enc_list negb andb option_map]. rewrite app_nil_r. reflexivity.
  - exists (own_info t). cbn [view]. rewrite Hl. unfold def_of. rewrite Hc, Hd, Hi, Hf, view_list_cons, pass_none.
    cbn [or_label]. rewrite V0. cbn [view_list option_map]. rewrite Hn. reflexivity.
  - apply variant_full. constructor; [exact N|constructor].
  - exact (single_prints name _ (field_form f (d, info)) _ Hfn P).
Qed.

(** Sequences of any label. *)
Lemma show_several A h id el (bs : A -> bytes) (Ls : A -> lines) l : ordinary types id (TSequence el) ->
  (exists t, lookup types el = Some t /\ transparent t = None) -> fits U32 (N.of_nat (List.length l)) = true ->
  Forall (fun a => exists v d, shown_as types HNone el (bs a) v d (Ls a) /\ forall ds, collect (d :: ds) = None) l ->
  can_show types h id (compact_enc (N.of_nat (List.length l)) ++ flat_map bs l) (fun b58 specs u =>
    ("Sequence: " ++ dec_string (N.of_nat (List.length l)) ++ " element(s)")%string :: map (append "  ") (flat_map (fun a => Ls a b58 specs u) l)).
Proof.
  intros Ho Ht Hf H. destruct (show_sequence types A id el bs Ls l Ho Ht Hf H) as (v & d & E & V & N & P).
  exists v, d. refine (conj E (conj _ (conj N P))). intros e. destruct (V e) as (info & V0). exists info. rewrite <- V0.
  destruct Ho as (t & Hl & Hc & Hd). unfold enc in E.
  destruct v; cbn [Spec.enc] in E; rewrite Hl in E; unfold def_of in E; rewrite Hc, ?Hd in E; try discriminate E.
  cbn [view]. rewrite Hl. unfold def_of. rewrite Hc, Hd. reflexivity.
Qed.

(** What is in these vectors. *)
Lemma element_opaque el : list_element types el -> exists t, lookup types el = Some t /\ transparent t = None.
Proof.
  intros [(t & Hl & Hc)|[(l & t & Hl & Hc & Hd)|[(t & l & Hl & Hc & Hd)|[(f & g & fs & t & Hl & Hc & Hd)|(ids & t & Hl & Hc & Hd)] ] ] ]; exists t; (split; [exact Hl|]); unfold transparent; rewrite Hc, ?Hd;
    try reflexivity; destruct (strs_eqb _ _); reflexivity.
Qed.

Lemma element_apart el e h v d info : list_element types el -> view types e h el v = Some (d, info) -> forall ds, collect (d :: ds) = None.
Proof.
  intros Hel V ds.
  assert (G : match d with DUInt _ _ _ | DSequence _ _ => False | _ => True end).
  { destruct (element_opaque el Hel) as (t0 & Hl0 & Ht0). rewrite (PropBatch.view_plain types e h el v t0 Hl0 Ht0) in V. clear Hl0 Ht0 t0.
    destruct Hel as [(t & Hl & Hc)|[(l & t & Hl & Hc & Hd)|[(t & l & Hl & Hc & Hd)|[(f & g & fs & t & Hl & Hc & Hd)|(ids & t & Hl & Hc & Hd)] ] ] ];
      destruct v; cbn [view] in V; rewrite Hl in V; unfold def_of in V; rewrite ?Hc, ?Hd in V;
      repeat (let x := fresh in match type of V with context [match ?y with _ => _ end] => destruct y as [] eqn:x; try discriminate V end);
      try discriminate V; injection V as <- _; exact I. }
  destruct d; try contradiction G; reflexivity.
Qed.

(** *** Arguments *)

Definition named (fs : list field) : list (string * arg) -> Prop :=
  (fix named (fs : list field) (l : list (string * arg)) {struct l} : Prop :=
    match fs, l with
    | [], [] => True
    | f :: fs', (name, a) :: l' => f_name f = Some name /\ allowed types (field_label f) (f_ty f) a /\ named fs' l'
    | _, _ => False
    end) fs.

Definition arg_shown (a : arg) : Prop := forall h id, allowed types h id a -> can_see h id (arg_bytes a) (fun b58 specs u => arg_lines b58 specs u a).

Lemma named_shown l : Forall (fun x => arg_shown (snd x)) l -> forall fs, named fs l -> exists r,
  fields_see fs (map (fun x => arg_bytes (snd x)) l) r /\ List.length fs = List.length l /\
  forall b58 specs u, field_lines r b58 specs u = flat_map (fun x => ("Field Name: " ++ fst x)%string :: map (append "  ") (arg_lines b58 specs u (snd x))) l.
Proof.
  induction 1 as [|[n a] l Ha _ IH]; intros [|f fs] H; try contradiction H; [exists []; repeat split; constructor|].
  destruct H as (Hn & Hall & H). destruct (IH fs H) as (r & F & Hlen & R). exists ((n, fun b58 specs u => arg_lines b58 specs u a) :: r). refine (conj _ (conj _ _)).
  - cbn [map snd]. constructor; [exact Hn|exact (Ha _ _ Hall)|exact F].
  - cbn [List.length]. congruence.
  - intros b58 specs u. unfold field_lines in *. cbn [flat_map fst snd]. rewrite R. reflexivity.
Qed.

Definition unnamed (fs : list field) : list arg -> Prop :=
  (fix unnamed (fs : list field) (l : list arg) {struct l} : Prop :=
    match fs, l with
    | [], [] => True
    | f :: fs', a :: l' => f_name f = None /\ allowed types (field_label f) (f_ty f) a /\ unnamed fs' l'
    | _, _ => False
    end) fs.

Lemma unnamed_shown l : Forall arg_shown l -> forall fs, unnamed fs l -> exists r,
  unnamed_see fs (map arg_bytes l) r /\ List.length fs = List.length l /\
  forall b58 specs u i, numbered_lines r b58 specs u i =
    (fix from (i : N) (l : list arg) : list string :=
      match l with [] => [] | a :: l' => ("Field Number: " ++ dec_string i)%string :: map (append "  ") (arg_lines b58 specs u a) ++ from (i + 1)%N l' end) i l.
Proof.
  induction 1 as [|a l Ha _ IH]; intros [|f fs] H; try contradiction H; [exists []; repeat split; constructor|].
  destruct H as (Hn & Hall & H). destruct (IH fs H) as (r & F & Hlen & R). exists ((fun b58 specs u => arg_lines b58 specs u a) :: r). refine (conj _ (conj _ _)).
  - cbn [map]. constructor; [exact Hn|exact (Ha _ _ Hall)|exact F].
  - cbn [List.length]. congruence.
  - intros b58 specs u i. cbn [numbered_lines]. fold (numbered_lines r b58 specs u (i + 1)). rewrite R. reflexivity.
Qed.

Definition each (ids : list N) : list arg -> Prop :=
  (fix each (ids : list N) (l : list arg) {struct l} : Prop :=
    match ids, l with
    | [], [] => True
    | i :: ids', a :: l' => (exists t, lookup types i = Some t /\ allowed types (path_label t) i a) /\ each ids' l'
    | _, _ => False
    end) ids.

Lemma each_shown l : Forall arg_shown l -> forall ids, each ids l -> exists r,
  each_see ids (map arg_bytes l) r /\ List.length ids = List.length l /\
  forall b58 specs u, flat_map (fun L : lines => L b58 specs u) r = flat_map (arg_lines b58 specs u) l.
Proof.
  induction 1 as [|a l Ha _ IH]; intros [|i ids] H; try contradiction H; [exists []; repeat split; constructor|].
  destruct H as ((t & Ht & Hall) & H). destruct (IH ids H) as (r & F & Hlen & R). exists ((fun b58 specs u => arg_lines b58 specs u a) :: r). refine (conj _ (conj _ _)).
  - cbn [map]. econstructor; [exact Ht|exact (Ha _ _ Hall)|exact F].
  - cbn [List.length]. congruence.
  - intros b58 specs u. cbn [flat_map]. rewrite R. reflexivity.
Qed.

Lemma order_shown i j pallet name l id h : Forall (fun x => arg_shown (snd x)) l -> allowed types h id (Order i j pallet name l) ->
  exists v p, shown_as types h id (arg_bytes (Order i j pallet name l)) v (DCall p) (fun b58 specs u => arg_lines b58 specs u (Order i j pallet name l)).
Proof.
  intros IH (t & pallets & pv & f & inner & items & item & Hl & Hc & Hd & Hi & Hpn & Hpf & Hli & Hci & Hdi & Hj & Hin & Hargs & Li & Lj).
  destruct (named_shown l IH (v_fields item) Hargs) as (r & F & _ & R). destruct (fields_seen _ _ _ (List.length (v_fields item)) F) as (vs & fds & E & V & N & P & _).
  assert (Hpi : pallet_items types t pv = Some (inner, items)) by (unfold pallet_items; rewrite Hpf, Hli, Hdi, Hc, Hci; reflexivity).
  assert (Ht : transparent t = None) by (unfold transparent; rewrite Hc; reflexivity).
  apply N.ltb_lt in Li, Lj.
  exists (VItem i j vs), (PSData (Info (docs_text (t_docs inner)) (t_path inner)) (docs_text (v_docs item)) pallet name fds).
  refine (conj _ (conj _ (conj (call_full _ _ _ _ _ N) _))).
  - cbn [enc]. rewrite Hl. unfold def_of. rewrite Hc, Hd, Hi, Hpi, Hj, Li, Lj, E. cbn [arg_bytes]. rewrite flat_map_concat_map. reflexivity.
  - intros x. exists (own_info t). rewrite (PropBatch.view_plain types x _ _ _ t Hl Ht). cbn [view]. rewrite Hl. unfold def_of. rewrite Hc, Hd, Hi, Hpi, Hj, V, Hpn, Hin. reflexivity.
  - eapply prints_as; [|apply (call_prints _ _ _ _ _ r P)]. intros b58 specs u. cbn beta. rewrite R. cbn [arg_lines].
    unfold str_in, PALLETS_BALANCE_VALID. cbn [existsb]. rewrite orb_false_r. reflexivity.
Qed.

Lemma every_arg_shown a : arg_shown a.
Proof.
  induction a as [who|x|packed n|packed w n|b|l|l|n name|n name a IH|l IH|l IH|i j pallet name l IH|n name l IH|a IH|n name l IH|l IH|k l|packed k n|w n] using arg_induction; intros h id H.
  - destruct H as (Hr & Hb & H32). exact (show_see _ _ _ _ (show_who types h id who Hr Hb H32)).
  - destruct H as (Hh & Hr & Hb & H32). rewrite Hh. destruct (show_hash types id x Hr Hb H32) as (d & Hs & _). apply show_see. exists (VRaw x), d. exact Hs.
  - destruct H as (Hh & Ht & Hn). rewrite Hh. apply PropBatch.u128 in Hn. apply show_see. destruct packed; [exact (show_money id n Ht Hn)|exact (show_amount types id n Ht Hn)].
  - destruct H as (Hh & Ht & Hn). rewrite Hh. apply fits_of in Hn. cbn [arg_lines]. rewrite <- (width_same w). apply show_see.
    destruct packed; [exact (show_compact types id w n Ht Hn)|exact (show_number types id w n Ht Hn)].
  - exact (show_see _ _ _ _ (show_truth h id b H)).
  - destruct H as (el & Ho & Hel & Hb & Hn). exact (show_see _ _ _ _ (show_bytes h id el l Ho Hel Hb Hn)).
  - destruct H as (el & Ho & Hel & Hb). exact (show_see _ _ _ _ (show_fixed h id el l Ho Hel Hb)).
  - destruct H as (vs & Ho & Hv & Hn). exact (show_see _ _ _ _ (show_unit types h id vs n name Ho Hv Hn)).
  - destruct H as (vs & f & Ho & Hv & Hn & Hfn & Ha). exact (show_given h id vs n name f _ _ Ho Hv Hn Hfn (IH _ _ Ha)).
  - destruct H as (Hh & fs & Ho & Hn & Hf). rewrite Hh. destruct (named_shown l IH fs Hf) as (r & F & Hlen & R).
    destruct (see_struct id fs _ r Ho Hn F) as (v & d & E & V & N & P). exists v, d.
    cbn [arg_bytes]. rewrite flat_map_concat_map. refine (conj E (conj V (conj N _))). eapply prints_as; [|exact P]. intros b58 specs u. cbn beta. rewrite R, Hlen. reflexivity.
  - destruct H as (el & Ho & Hel & Hn & Hall). apply PropBatch.u32 in Hn. apply show_see. destruct (element_opaque el Hel) as (te & Hle & Hte).
    apply (show_several arg h id el arg_bytes (fun a b58 specs u => arg_lines b58 specs u a) l Ho (element_opaque el Hel) Hn).
    clear Hn. induction IH as [|a l Ha _ IHl]; [constructor|]. destruct Hall as (H1 & H2). constructor; [|exact (IHl H2)].
    destruct (see_show _ _ te _ _ Hle Hte (Ha _ _ H1)) as (v & d & S). exists v, d. split; [exact S|]. destruct S as (_ & V & _). destruct (V false) as (info & V0). exact (element_apart el _ _ v d info Hel V0).
  - destruct (order_shown i j pallet name l id h IH H) as (v & p & S). apply show_see. exists v, (DCall p). exact S.
  - destruct H as (vs & fs & Ho & Hv & Hn & Hne & Hf). destruct (named_shown l IH fs Hf) as (r & F & Hlen & R).
    assert (Hfs : fs <> []) by (intros ->; destruct l; [contradiction|discriminate Hlen]).
    destruct (see_made h id vs n name fs _ r Ho Hv Hn Hfs F) as (v & d & E & V & N & P). exists v, d.
    cbn [arg_bytes]. rewrite flat_map_concat_map. refine (conj E (conj V (conj N _))). eapply prints_as; [|exact P]. intros b58 specs u. cbn beta. rewrite R. reflexivity.
  - destruct H as (f & Ho & Hfn & Ha). exact (see_inside h id f _ _ Ho Hfn (IH _ _ Ha)).
  - destruct H as (vs & fs & Ho & Hv & Hn & Hne & Hf). destruct (unnamed_shown l IH fs Hf) as (r & F & Hlen & R). rewrite <- Hlen in Hne.
    destruct (see_numbered h id vs n name fs _ r Ho Hv Hn Hne F) as (v & d & E & V & N & P). exists v, d.
    cbn [arg_bytes]. rewrite flat_map_concat_map. refine (conj E (conj V (conj N _))). eapply prints_as; [|exact P]. intros b58 specs u. cbn beta. rewrite R. reflexivity.
  - destruct H as (Hh & ids & Ho & Hne & Hf). rewrite Hh. destruct (each_shown l IH ids Hf) as (r & F & Hlen & R).
    assert (Hids : ids <> []) by (intros ->; destruct l; [contradiction Hne; reflexivity|discriminate Hlen]).
    destruct (see_tuple id ids _ r Ho Hids F) as (v & d & E & V & N & P). exists v, d.
    cbn [arg_bytes]. rewrite flat_map_concat_map. refine (conj E (conj V (conj N _))). eapply prints_as; [|exact P]. intros b58 specs u. cbn beta. rewrite R, Hlen. reflexivity.
  - destruct H as (Hr & _ & Hb & Hn). exact (show_raw h id k l Hr Hb Hn).
  - destruct H as (Hk & Hn). exact (show_part h id packed k n Hk Hn).
  - destruct H as (Hh & Hk & Hn). rewrite Hh. apply fits_of in Hn. cbn [arg_lines]. rewrite <- (width_same w). exact (show_packed id w n Hk Hn).
Qed.
End Values.

(** ** The bytes tell the call *)

Section Told.
Variable types : list ty.

Lemma one_type id d d' : ordinary types id d -> ordinary types id d' -> d = d'.
Proof. intros (t & H1 & _ & H2) (t' & H1' & _ & H2'). congruence. Qed.

Definition compact_tag (j : N) : N :=
  match lookup types j with
  | Some t => match classify t with SpPer _ => 15 | _ => match t_def t with TComposite _ => 16 | _ => 4 end end
  | None => 4
  end%N.

Definition type_tag (t : ty) : N :=
  match classify t with
  | SpRaw KAccountId32 => 1
  | SpRaw _ => 13
  | SpPer _ => 14
  | SpHash => 2
  | SpItem _ => 3
  | SpPlain =>
      match t_def t with
      | TCompact j => compact_tag j
      | TPrimitive PrBool => 5
      | TPrimitive _ => 6
      | TSequence _ => 7
      | TVariant _ => 8
      | TComposite [_] => 11
      | TComposite _ => 9
      | TArray _ _ => 10
      | TTuple _ => 12
      | _ => 0
      end
  | _ => 0
  end.

Definition arg_tag (a : arg) : N :=
  match a with
  | Account _ => 1
  | Hash _ => 2
  | Order _ _ _ _ _ => 3
  | Money packed _ | Number packed _ _ => if packed then 4 else 6
  | Truth _ => 5
  | Bytes _ | Several _ => 7
  | Choice _ _ | Given _ _ _ | Made _ _ _ | Numbered _ _ _ => 8
  | Tuple _ => 12
  | Raw _ _ => 13
  | Part packed _ _ => if packed then 15 else 14
  | Packed _ _ => 16
  | Struct _ => 9
  | Inside _ => 11
  | Fixed _ => 10
  end.

Lemma ordinary_tag id d t : lookup types id = Some t -> ordinary types id d -> type_tag t =
  match d with TCompact j => compact_tag j | TPrimitive PrBool => 5 | TPrimitive _ => 6 | TSequence _ => 7 | TVariant _ => 8 | TComposite [_] => 11 | TComposite _ => 9 | TArray _ _ => 10 | TTuple _ => 12 | _ => 0 end%N.
Proof. intros H (t' & Hl & Hc & Hd). assert (t' = t) by congruence. subst t'. unfold type_tag. rewrite Hc, Hd. reflexivity. Qed.

Lemma number_tag (packed : bool) w id t : lookup types id = Some t -> (if packed then compact_number types w id else number_type types w id) -> type_tag t = if packed then 4%N else 6%N.
Proof.
  intros Hl H. destruct packed; [|rewrite (ordinary_tag id _ t Hl H); reflexivity].
  destruct H as (j & H & (t' & Hl' & Hc' & Hd')). rewrite (ordinary_tag id _ t Hl H). unfold compact_tag. rewrite Hl', Hc', Hd'. reflexivity.
Qed.

Lemma allowed_tag h id a t : lookup types id = Some t -> allowed types h id a -> type_tag t = arg_tag a.
Proof.
  intros Hl H. destruct a as [who|x|packed n|packed w n|b|l|l|n name|n name a|l|l|i j pallet name l|n name l|a|n name l|l|k l|packed k n|w n]; cbn [allowed] in H.
  - destruct H as ((t' & Hl' & Hc) & _). assert (E : t' = t) by congruence. rewrite E in Hc. unfold type_tag. rewrite Hc. reflexivity.
  - destruct H as (_ & (t' & Hl' & Hc) & _). assert (E : t' = t) by congruence. rewrite E in Hc. unfold type_tag. rewrite Hc. reflexivity.
  - destruct H as (_ & H & _). exact (number_tag packed _ id t Hl H).
  - destruct H as (_ & H & _). exact (number_tag packed _ id t Hl H).
  - rewrite (ordinary_tag id _ t Hl H). reflexivity.
  - destruct H as (el & H & _). rewrite (ordinary_tag id _ t Hl H). reflexivity.
  - destruct H as (el & H & _). rewrite (ordinary_tag id _ t Hl H). reflexivity.
  - destruct H as (vs & H & _). rewrite (ordinary_tag id _ t Hl H). reflexivity.
  - destruct H as (vs & f & H & _). rewrite (ordinary_tag id _ t Hl H). reflexivity.
  - destruct H as (_ & fs & H & Hn & _). rewrite (ordinary_tag id _ t Hl H). destruct fs as [|f [|g fs] ]; cbn [List.length] in Hn; try lia; reflexivity.
  - destruct H as (el & H & _). rewrite (ordinary_tag id _ t Hl H). reflexivity.
  - destruct H as (t' & pallets & p & f & inner & items & item & Hl' & Hc & _). assert (E : t' = t) by congruence. rewrite E in Hc. unfold type_tag. rewrite Hc. reflexivity.
  - destruct H as (vs & fs & H & _). rewrite (ordinary_tag id _ t Hl H). reflexivity.
  - destruct H as (f & H & _). rewrite (ordinary_tag id _ t Hl H). reflexivity.
  - destruct H as (vs & fs & H & _). rewrite (ordinary_tag id _ t Hl H). reflexivity.
  - destruct H as (_ & ids & H & _). rewrite (ordinary_tag id _ t Hl H). reflexivity.
  - destruct H as ((t' & Hl' & Hc) & Hk & _). assert (E : t' = t) by congruence. rewrite E in Hc. unfold type_tag. rewrite Hc. destruct k; try reflexivity. contradiction Hk. reflexivity.
  - destruct H as (H & _). destruct packed.
    + destruct H as (j & H & (t' & Hl' & Hc')). rewrite (ordinary_tag id _ t Hl H). unfold compact_tag. rewrite Hl', Hc'. reflexivity.
    + destruct H as (t' & Hl' & Hc). assert (E : t' = t) by congruence. rewrite E in Hc. unfold type_tag. rewrite Hc. reflexivity.
  - destruct H as (_ & (j & H & f & (t' & Hl' & Hc' & Hd') & _) & _). rewrite (ordinary_tag id _ t Hl H). unfold compact_tag. rewrite Hl', Hc', Hd'. reflexivity.
Qed.

Lemma allowed_there h id a : allowed types h id a -> exists t, lookup types id = Some t.
Proof. intros H. destruct (every_arg_shown types a h id H) as (v & d & E & _). destruct (ProofSpec.enc_lookup _ _ _ _ _ E) as (t & Hl). eauto. Qed.

Lemma same_tag h h' id a b : allowed types h id a -> allowed types h' id b -> arg_tag a = arg_tag b.
Proof. intros H H'. destruct (allowed_there h id a H) as (t & Hl). rewrite <- (allowed_tag h id a t Hl H), <- (allowed_tag h' id b t Hl H'). reflexivity. Qed.

Definition told (a : arg) : Prop := forall b h id r s, allowed types h id a -> allowed types h id b -> arg_bytes a ++ r = arg_bytes b ++ s -> a = b /\ r = s.

Lemma named_told l : Forall (fun x => told (snd x)) l -> forall fs l' r s, named types fs l -> named types fs l' ->
  flat_map (fun x => arg_bytes (snd x)) l ++ r = flat_map (fun x => arg_bytes (snd x)) l' ++ s -> l = l' /\ r = s.
Proof.
  induction 1 as [|[n a] l Ha _ IH]; intros [|f fs] [|[n' a'] l'] r s H1 H2 E; try contradiction; [split; [reflexivity|exact E]|].
  destruct H1 as (N1 & A1 & R1). destruct H2 as (N2 & A2 & R2). cbn [flat_map snd] in E, Ha. rewrite <- !app_assoc in E.
  destruct (Ha _ _ _ _ _ A1 A2 E) as [-> E']. destruct (IH _ _ _ _ R1 R2 E') as [-> ->]. split; [|reflexivity]. congruence.
Qed.

Lemma unnamed_told l : Forall told l -> forall fs l' r s, unnamed types fs l -> unnamed types fs l' ->
  flat_map arg_bytes l ++ r = flat_map arg_bytes l' ++ s -> l = l' /\ r = s.
Proof.
  induction 1 as [|a l Ha _ IH]; intros [|f fs] [|a' l'] r s H1 H2 E; try contradiction; [split; [reflexivity|exact E]|].
  destruct H1 as (N1 & A1 & R1). destruct H2 as (N2 & A2 & R2). cbn [flat_map] in E. rewrite <- !app_assoc in E.
  destruct (Ha _ _ _ _ _ A1 A2 E) as [-> E']. destruct (IH _ _ _ _ R1 R2 E') as [-> ->]. auto.
Qed.

Lemma each_told l : Forall told l -> forall ids l' r s, each types ids l -> each types ids l' ->
  flat_map arg_bytes l ++ r = flat_map arg_bytes l' ++ s -> l = l' /\ r = s.
Proof.
  induction 1 as [|a l Ha _ IH]; intros [|i ids] [|a' l'] r s H1 H2 E; try contradiction; [split; [reflexivity|exact E]|].
  destruct H1 as ((t & T1 & A1) & R1). destruct H2 as ((t' & T2 & A2) & R2). assert (X : t' = t) by congruence. rewrite X in A2.
  cbn [flat_map] in E. rewrite <- !app_assoc in E.
  destruct (Ha _ _ _ _ _ A1 A2 E) as [-> E']. destruct (IH _ _ _ _ R1 R2 E') as [-> ->]. auto.
Qed.

Lemma unnamed_length fs : forall l, unnamed types fs l -> List.length fs = List.length l /\ Forall (fun f => f_name f = None) fs.
Proof.
  induction fs as [|f fs IH]; intros [|a l] H; try contradiction H; [auto|]. destruct H as (Hn & _ & H). destruct (IH l H) as (E & F).
  cbn [List.length]. split; [congruence|constructor; assumption].
Qed.
Lemma named_length fs : forall l, named types fs l -> List.length fs = List.length l /\ Forall (fun f => f_name f <> None) fs.
Proof.
  induction fs as [|f fs IH]; intros [|[n a] l] H; try contradiction H; [auto|]. destruct H as (Hn & _ & H). destruct (IH l H) as (E & F).
  cbn [List.length]. split; [congruence|constructor; [congruence|assumption]].
Qed.

(** The fields of a variant tell in which of the four ways it is given. *)
Definition fields_way (fs : list field) : N := match fs with [] => 0 | [f] => match f_name f with None => 1 | Some _ => 2 end | f :: _ => match f_name f with None => 3 | Some _ => 2 end end%N.
Lemma way_named fs l : l <> [] -> named types fs l -> fields_way fs = 2%N.
Proof. intros Hne H. destruct (named_length fs l H) as (E & F). destruct fs as [|f fs]; [destruct l; [contradiction Hne; reflexivity|discriminate E]|]. inversion F as [|x y Hf _ ]; subst. cbn [fields_way]. destruct fs; destruct (f_name f); congruence. Qed.
Lemma way_unnamed fs l : (2 <= List.length l)%nat -> unnamed types fs l -> fields_way fs = 3%N.
Proof.
  intros Hn H. destruct (unnamed_length fs l H) as (E & F). rewrite <- E in Hn. destruct fs as [|f [|g fs] ]; cbn [List.length] in Hn; try lia.
  inversion F as [|x y Hf _ ]; subst. cbn [fields_way]. rewrite Hf. reflexivity.
Qed.

Lemma variant_way h id a : allowed types h id a ->
  match a with
  | Choice n _ => exists vs v, ordinary types id (TVariant vs) /\ by_index vs n = Some v /\ fields_way (v_fields v) = 0%N
  | Given n _ _ => exists vs v, ordinary types id (TVariant vs) /\ by_index vs n = Some v /\ fields_way (v_fields v) = 1%N
  | Made n _ _ => exists vs v, ordinary types id (TVariant vs) /\ by_index vs n = Some v /\ fields_way (v_fields v) = 2%N
  | Numbered n _ _ => exists vs v, ordinary types id (TVariant vs) /\ by_index vs n = Some v /\ fields_way (v_fields v) = 3%N
  | _ => True
  end.
Proof.
  intros H. destruct a; try exact I.
  - destruct H as (vs & Ho & (v & Hi & _ & Hf) & _). exists vs, v. rewrite Hf. auto.
  - destruct H as (vs & f & Ho & (v & Hi & _ & Hf) & _ & Hn & _). exists vs, v. rewrite Hf. cbn [fields_way]. rewrite Hn. auto.
  - destruct H as (vs & fs & Ho & (v & Hi & _ & Hf) & _ & Hne & A). exists vs, v. rewrite Hf, (way_named fs _ Hne A). auto.
  - destruct H as (vs & fs & Ho & (v & Hi & _ & Hf) & _ & Hne & A). exists vs, v. rewrite Hf, (way_unnamed fs _ Hne A). auto.
Qed.

Lemma same_way vs vs' (v v' : variant) n x y id : x <> y ->
  ordinary types id (TVariant vs) -> ordinary types id (TVariant vs') -> by_index vs n = Some v -> by_index vs' n = Some v' ->
  fields_way (v_fields v) = x -> fields_way (v_fields v') = y -> False.
Proof. intros Hne H H' I I' W W'. pose proof (one_type _ _ _ H H') as X. injection X as <-. congruence. Qed.

Lemma packed_told w n m r s : fits w n = true -> fits w m = true -> compact_enc n ++ r = compact_enc m ++ s -> n = m /\ r = s.
Proof. apply ProofPrefixFree.compact_free. Qed.
Lemma plain_told w n m r s : fits w n = true -> fits w m = true -> le_bytes (usize w) n ++ r = le_bytes (usize w) m ++ s -> n = m /\ r = s.
Proof.
  intros Hn Hm. apply le_told; apply N.ltb_lt in Hn, Hm.
  - change 256%N with (2 ^ 8)%N. rewrite <- N.pow_mul_r. exact Hn.
  - change 256%N with (2 ^ 8)%N. rewrite <- N.pow_mul_r. exact Hm.
Qed.
Lemma number_told (packed : bool) w n m r s : fits w n = true -> fits w m = true ->
  (if packed then compact_enc n else le_bytes (usize w) n) ++ r = (if packed then compact_enc m else le_bytes (usize w) m) ++ s -> n = m /\ r = s.
Proof. intros Hn Hm. destruct packed; [exact (packed_told w n m r s Hn Hm)|exact (plain_told w n m r s Hn Hm)]. Qed.

Lemma head_told (n m : N) r s : n :: r = m :: s -> n = m /\ r = s.
Proof. intros H. injection H as -> ->. auto. Qed.

Lemma variant_told vs n name fs name' fs' : has_variant vs n name fs -> has_variant vs n name' fs' -> name = name' /\ fs = fs'.
Proof. intros (v & H1 & H2 & H3) (v' & H1' & H2' & H3'). split; congruence. Qed.

Lemma number_width (packed : bool) w w' id : (if packed then compact_number types w id else number_type types w id) ->
  (if packed then compact_number types w' id else number_type types w' id) -> w = w'.
Proof.
  destruct packed.
  - intros (j & H1 & H2) (j' & H1' & H2'). pose proof (one_type _ _ _ H1 H1') as E. injection E as <-. pose proof (one_type _ _ _ H2 H2') as E. congruence.
  - intros H H'. pose proof (one_type _ _ _ H H') as E. congruence.
Qed.

Lemma bytes_not_several el : number_type types U8 el -> list_element types el -> False.
Proof.
  intros (t & Hl & Hc & Hd) [(t' & Hl' & Hc')|[(l & t' & Hl' & Hc' & Hd')|[(t' & l & Hl' & Hc' & Hd')|[(f & g & fs & t' & Hl' & Hc' & Hd')|(ids & t' & Hl' & Hc' & Hd')] ] ] ]; congruence.
Qed.

Ltac other_way Y Y' E :=
  let O := fresh in let I1 := fresh in let W := fresh in let O' := fresh in let I' := fresh in let W' := fresh in
  destruct Y as (? & ? & O & I1 & W); destruct Y' as (? & ? & O' & I' & W'); cbn [app] in E; apply head_told in E; destruct E as [<- _]; exfalso;
  refine (same_way _ _ _ _ _ _ _ _ _ O O' I1 I' W W'); discriminate.

Lemma arg_told a : told a.
Proof.
  induction a as [who|x|packed n|packed w n|b|l|l|n name|n name a IH|l IH|l IH|i j pallet name l IH|n name l IH|a IH|n name l IH|l IH|k l|packed k n|w n] using arg_induction; intros b' h id r s H H' E;
    pose proof (same_tag h h id _ _ H H') as T;
    destruct b' as [who'|x'|packed' n'|packed' w' n'|b'|l'|l'|n' name'|n' name' a'|l'|l'|i' j' pallet' name' l'|n' name' l'|a'|n' name' l'|l'|k' l'|packed' k' n'|w' n'];
    try discriminate T; try (destruct packed; discriminate T); try (destruct packed'; discriminate T); try (destruct packed, packed'; discriminate T);
    pose proof (variant_way _ _ _ H) as Y; pose proof (variant_way _ _ _ H') as Y'; cbn [allowed] in H, H'; cbn [arg_bytes] in E.
  - destruct H as (_ & _ & H). destruct H' as (_ & _ & H'). apply same_length in E; [|congruence]. destruct E as [-> ->]. auto.
  - destruct H as (_ & _ & _ & H). destruct H' as (_ & _ & _ & H'). apply same_length in E; [|congruence]. destruct E as [-> ->]. auto.
  - destruct H as (_ & _ & H). destruct H' as (_ & _ & H'). assert (P : packed = packed') by (destruct packed, packed'; [reflexivity|discriminate T|discriminate T|reflexivity]).
    rewrite <- P in *. apply (number_told packed U128 n n') in E; [|apply PropBatch.u128, H|apply PropBatch.u128, H']. destruct E as [-> ->]. auto.
  - destruct H as (H & _). destruct H' as (H' & _). congruence.
  - destruct H as (H & _). destruct H' as (H' & _). congruence.
  - destruct H as (_ & W & H). destruct H' as (_ & W' & H'). assert (P : packed = packed') by (destruct packed, packed'; [reflexivity|discriminate T|discriminate T|reflexivity]).
    rewrite <- P in *. pose proof (number_width packed w w' id W W') as Ew. rewrite <- Ew in *. apply (number_told packed w n n') in E; [|apply fits_of, H|apply fits_of, H'].
    destruct E as [-> ->]. auto.
  - cbn [app] in E. apply head_told in E. destruct E as [E ->]. destruct b, b'; try discriminate E; auto.
  - destruct H as (el & _ & _ & _ & H). destruct H' as (el' & _ & _ & _ & H'). rewrite <- !app_assoc in E. apply length_told in E; [|exact H|exact H'].
    destruct E as [E1 E2]. apply Nnat.Nat2N.inj in E1. apply same_length in E2; [|exact E1]. destruct E2 as [-> ->]. auto.
  - destruct H as (el & H & Hel & _). destruct H' as (el' & H' & Hel' & _). pose proof (one_type _ _ _ H H') as X. injection X as <-. destruct (bytes_not_several _ Hel Hel').
  - destruct H as (el & H & _). destruct H' as (el' & H' & _). pose proof (one_type _ _ _ H H') as X. injection X as X _. apply Nnat.Nat2N.inj in X.
    apply same_length in E; [|exact X]. destruct E as [-> ->]. auto.
  - destruct H as (vs & H & V & _). destruct H' as (vs' & H' & V' & _). pose proof (one_type _ _ _ H H') as X. injection X as <-.
    cbn [app] in E. apply head_told in E. destruct E as [<- ->]. destruct (variant_told _ _ _ _ _ _ V V') as [-> _]. auto.
  - other_way Y Y' E.
  - other_way Y Y' E.
  - other_way Y Y' E.
  - other_way Y Y' E.
  - destruct H as (vs & f & H & V & _ & _ & A). destruct H' as (vs' & f' & H' & V' & _ & _ & A'). pose proof (one_type _ _ _ H H') as X. injection X as <-.
    cbn [app] in E. apply head_told in E. destruct E as [<- E]. destruct (variant_told _ _ _ _ _ _ V V') as [-> X]. injection X as <-.
    destruct (IH _ _ _ _ _ A A' E) as [-> ->]. auto.
  - other_way Y Y' E.
  - other_way Y Y' E.
  - destruct H as (_ & fs & H & _ & A). destruct H' as (_ & fs' & H' & _ & A'). pose proof (one_type _ _ _ H H') as X. injection X as <-.
    destruct (named_told l IH fs l' r s A A' E) as [-> ->]. auto.
  - destruct H as (el & H & Hel & _). destruct H' as (el' & H' & Hel' & _). pose proof (one_type _ _ _ H H') as X. injection X as <-. destruct (bytes_not_several _ Hel' Hel).
  - destruct H as (el & H & _ & Hn & A). destruct H' as (el' & H' & _ & Hn' & A'). pose proof (one_type _ _ _ H H') as X. injection X as <-.
    rewrite <- !app_assoc in E. apply length_told in E; [|exact Hn|exact Hn']. destruct E as [El E]. apply Nnat.Nat2N.inj in El. clear - IH A A' El E.
    assert (G : l = l' /\ r = s); [|destruct G as [-> ->]; auto]. revert l' A' El E.
    induction IH as [|a l Ha _ IHl]; intros [|b l'] A' El E; try discriminate El; [auto|]. destruct A as (A1 & A2). destruct A' as (A1' & A2').
    cbn [flat_map] in E. rewrite <- !app_assoc in E. destruct (Ha _ _ _ _ _ A1 A1' E) as [-> E']. injection El as El.
    destruct (IHl A2 l' A2' El E') as [-> ->]. auto.
  - cbn [app] in E. apply PropBatch.two_told in E. destruct E as (E1 & E2 & E). rewrite <- E1, <- E2 in *. clear E1 E2.
    destruct H as (t & pallets & pv & f & inner & items & item & Hl & _ & Hd & Hi & Hpn & Hpf & Hli & _ & Hdi & Hj & Hin & A & _).
    destruct H' as (t' & pallets' & pv' & f' & inner' & items' & item' & Hl' & _ & Hd' & Hi' & Hpn' & Hpf' & Hli' & _ & Hdi' & Hj' & Hin' & A' & _).
    assert (X1 : t' = t) by congruence. rewrite X1 in *. assert (X2 : pallets' = pallets) by congruence. rewrite X2 in *.
    assert (X3 : pv' = pv) by congruence. rewrite X3 in *. assert (X4 : f' = f) by congruence. rewrite X4 in *.
    assert (X5 : inner' = inner) by congruence. rewrite X5 in *. assert (X6 : items' = items) by congruence. rewrite X6 in *.
    assert (X7 : item' = item) by congruence. rewrite X7 in *.
    destruct (named_told l IH (v_fields item) l' r s A A' E) as [-> ->]. split; [|reflexivity]. congruence.
  - other_way Y Y' E.
  - other_way Y Y' E.
  - destruct H as (vs & fs & H & V & _ & _ & A). destruct H' as (vs' & fs' & H' & V' & _ & _ & A'). pose proof (one_type _ _ _ H H') as X. injection X as <-.
    cbn [app] in E. apply head_told in E. destruct E as [<- E]. destruct (variant_told _ _ _ _ _ _ V V') as [-> X]. rewrite <- X in A'.
    destruct (named_told l IH fs l' r s A A' E) as [-> ->]. auto.
  - other_way Y Y' E.
  - destruct H as (f & H & _ & A). destruct H' as (f' & H' & _ & A'). pose proof (one_type _ _ _ H H') as X. injection X as <-.
    destruct (IH _ _ _ _ _ A A' E) as [-> ->]. auto.
  - other_way Y Y' E.
  - other_way Y Y' E.
  - other_way Y Y' E.
  - destruct H as (vs & fs & H & V & _ & _ & A). destruct H' as (vs' & fs' & H' & V' & _ & _ & A'). pose proof (one_type _ _ _ H H') as X. injection X as <-.
    cbn [app] in E. apply head_told in E. destruct E as [<- E]. destruct (variant_told _ _ _ _ _ _ V V') as [-> X]. rewrite <- X in A'.
    destruct (unnamed_told l IH fs l' r s A A' E) as [-> ->]. auto.
  - destruct H as (_ & ids & H & _ & A). destruct H' as (_ & ids' & H' & _ & A'). pose proof (one_type _ _ _ H H') as X. injection X as <-.
    destruct (each_told l IH ids l' r s A A' E) as [-> ->]. auto.
  - destruct H as ((t & Hl & Hc) & _ & _ & H). destruct H' as ((t' & Hl' & Hc') & _ & _ & H'). assert (X : t' = t) by congruence. rewrite X in Hc'.
    assert (K : k' = k) by congruence. rewrite K in *. apply same_length in E; [|congruence]. destruct E as [-> ->]. auto.
  - assert (P : packed = packed') by (destruct packed, packed'; [reflexivity|discriminate T|discriminate T|reflexivity]). rewrite <- P in *.
    destruct H as (H & Hn). destruct H' as (H' & Hn'). assert (K : k = k').
    { destruct packed.
      - destruct H as (j & H & (t & Hl & Hc)). destruct H' as (j' & H' & (t' & Hl' & Hc')). pose proof (one_type _ _ _ H H') as X. injection X as <-. congruence.
      - destruct H as (t & Hl & Hc). destruct H' as (t' & Hl' & Hc'). congruence. }
    rewrite <- K in *. apply (number_told packed (part_width k) n n') in E; [|exact (part_fits k n Hn)|exact (part_fits k n' Hn')]. destruct E as [-> ->]. auto.
  - destruct H as (_ & (j & H & f & Hf & _ & _ & Hw) & Hn). destruct H' as (_ & (j' & H' & f' & Hf' & _ & _ & Hw') & Hn').
    pose proof (one_type _ _ _ H H') as X. injection X as <-. pose proof (one_type _ _ _ Hf Hf') as X. injection X as <-. pose proof (one_type _ _ _ Hw Hw') as X. injection X as <-.
    apply (packed_told w n n') in E; [|apply fits_of, Hn|apply fits_of, Hn']. destruct E as [-> ->]. auto.
Qed.
End Told.

(** ** The theorems *)

(** A call with these arguments, and with others within it, is accepted, and it is shown in these lines. *)
Theorem c83_order : forall ME (c : chain ME) call_ty exts nv s g a,
  acyclic (ch_types c) ->
  ch_call c = inl call_ty -> ch_extensions c = inl exts -> usual_extensions (ch_types c) exts ->
  ch_spec c = inl nv -> printed_spec_version nv = dec_string (sg_version s) ->
  proper s -> g = None \/ g = Some (sg_genesis s) ->
  (exists i j pallet name l, a = Order i j pallet name l) -> allowed (ch_types c) HNone call_ty a -> (N.of_nat (List.length (arg_bytes a)) < 2 ^ 32)%N ->
  exists call xs,
    transaction c g (payload (arg_bytes a) (all_extension_bytes s exts)) = Ok (TransactionParsed (inl call) xs) /\
    transaction_unmarked c g (arg_bytes a ++ all_extension_bytes s exts) = Ok (call, xs) /\
    forall b58 icon specs chain_name bits,
      map (show bits) (card_call b58 icon specs chain_name call 0) = arg_lines b58 specs true a /\
      map (show bits) (card_extensions b58 icon specs chain_name xs) = all_extension_lines specs chain_name s exts.
Proof.
  intros ME c call_ty exts nv s g a Ha Hc He Hu Hs Hv Hp Hg (i & j & pallet & name & l & ->) Hal Hl.
  destruct (order_shown (ch_types c) i j pallet name l call_ty HNone) as (v & p & En & Vi & _ & L); [|exact Hal|].
  { clear. induction l as [|x l IH]; constructor; [apply every_arg_shown|exact IH]. }
  destruct (Vi false) as (info & V0).
  destruct (PropBatch.c79_call ME c call_ty exts nv s g v _ p info Ha Hc He Hu Hs Hv Hp Hg En V0 Hl) as (xs & T1 & T2 & T3).
  exists p, xs. split; [exact T1|]. split; [exact T2|]. intros b58 icon specs cn bits. split; [|apply T3].
  pose proof (L b58 icon specs cn bits [] 0%nat true) as G. cbn [card] in G. unfold card_call. rewrite G. cbn [Nat.mul blanks]. apply map_id.
Qed.
Print Assumptions c83_order.

(** Conversely: whatever is shown in these lines is this call, byte by byte. *)
Theorem c83_only_order : forall ME (c : chain ME) call_ty exts nv s g a,
  acyclic (ch_types c) -> told_apart (ch_types c) ->
  ch_call c = inl call_ty -> ch_extensions c = inl exts -> usual_extensions (ch_types c) exts ->
  ch_spec c = inl nv -> printed_spec_version nv = dec_string (sg_version s) ->
  proper s -> g = None \/ g = Some (sg_genesis s) ->
  (exists i j pallet name l, a = Order i j pallet name l) -> allowed (ch_types c) HNone call_ty a -> (N.of_nat (List.length (arg_bytes a)) < 2 ^ 32)%N ->
  forall b58 icon specs chain_name bits data call xs,
  base58_faithful b58 -> bits_faithful bits -> (decimals specs < 256)%N -> is_bytes data ->
  transaction c g data = Ok (TransactionParsed (inl call) xs) ->
  map (show bits) (card_call b58 icon specs chain_name call 0) = arg_lines b58 specs true a ->
  map (show bits) (card_extensions b58 icon specs chain_name xs) = all_extension_lines specs chain_name s exts ->
  data = payload (arg_bytes a) (all_extension_bytes s exts).
Proof.
  intros ME c call_ty exts nv s g a Ha Hap Hc He Hu Hs Hv Hp Hg (i & j & pallet & name & l & ->) Hal Hl b58 icon specs cn bits data call xs F1 F2 Hd Hdata Htr E1 E2.
  destruct (order_shown (ch_types c) i j pallet name l call_ty HNone) as (v & p & En & Vi & N1 & L); [|exact Hal|].
  { clear. induction l as [|x l IH]; constructor; [apply every_arg_shown|exact IH]. }
  destruct (Vi false) as (info & V0).
  destruct (PropBatch.call_accepted c call_ty exts nv Ha Hc He Hu Hs s g (arg_bytes (Order i j pallet name l)) (Ext (DCall p) info) p Hv Hp) as (xs' & N2 & B & T & _ & L2);
    [destruct Hg as [-> | ->]; [exact I|reflexivity]|exists v; split; [exact En|exact V0]|reflexivity|apply PropBatch.u32, Hl|].
  symmetry. apply (PropSee.c48_transaction b58 icon specs cn bits ME c g g _ data p call xs' xs F1 F2 Hd Hap B Hdata T Htr N1 N2).
  pose proof (L b58 icon specs cn bits [] 0%nat true) as G. cbn [card Nat.mul blanks] in G. rewrite map_id in G.
  rewrite !map_app, E1, E2, L2. unfold card_call. rewrite G. reflexivity.
Qed.
Print Assumptions c83_only_order.

(** The bytes are those of one value only, and so are the lines. *)
Theorem c83_bytes_tell : forall types label id a b, allowed types label id a -> allowed types label id b ->
  arg_bytes a = arg_bytes b -> a = b.
Proof. intros types label id a b H1 H2 E. apply (arg_told types a b label id [] [] H1 H2). rewrite E. reflexivity. Qed.
Print Assumptions c83_bytes_tell.

Theorem c83_lines_tell : forall types id b58 specs unit a b, acyclic types -> told_apart types ->
  base58_faithful b58 -> (decimals specs < 256)%N -> allowed types HNone id a -> allowed types HNone id b ->
  arg_lines b58 specs unit a = arg_lines b58 specs unit b -> a = b.
Proof.
  intros types id b58 specs unit a b Ha Hap F1 Hd H1 H2 E. apply (c83_bytes_tell types HNone id a b H1 H2).
  destruct (every_arg_shown types a HNone id H1) as (v1 & d1 & E1 & V1 & N1 & L1). destruct (every_arg_shown types b HNone id H2) as (v2 & d2 & E2 & V2 & N2 & L2).
  destruct V1 as (i1 & W1). destruct V2 as (i2 & W2).
  assert (F2 : bits_faithful Address.bits_text) by apply PropAddress.c67_formats.
  assert (W : forall v bs d i, enc types false id v = Some bs -> view types false HNone id v = Some (d, i) -> decode_all types bs id = Ok (Ext d i)).
  { intros v bs d i X Y. apply ProofStorage.encodes_whole; [exact Ha|]. exists v. split; assumption. }
  apply (PropSee.c47_blob b58 (fun _ => []) specs "" Address.bits_text types _ _ id (Ext d1 i1) (Ext d2 i2) 0%nat unit F1 F2 Hd Hap).
  - exact (enc_bytes _ _ _ _ _ E1).
  - exact (enc_bytes _ _ _ _ _ E2).
  - exact (W _ _ _ _ E1 W1).
  - exact (W _ _ _ _ E2 W2).
  - exact N1.
  - unfold card_ext, card_ext_with. cbn [x_data x_info]. rewrite L1, L2. cbv beta. rewrite E. reflexivity.
Qed.
Print Assumptions c83_lines_tell.
