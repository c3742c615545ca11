(** C81: the events in the storage are shown one by one, with exactly their accounts, amounts,
    phases and topics, and only they are. *)
From Coq Require Import Lia.
From Verif Require Import Base Compact Types Indicators Decode Sign Balance Cards Storage Spec SpecStorage SpecCards SpecSee SpecTransfer
  SpecAccount SpecEvents Api ApiStorage ProofBase ProofLeaf ProofWf ProofCor ProofTransfer PropTransfer PropAccount.
From Verif Require ProofPrefixFree ProofShow ProofStorage PropStorage PropSee PropBatch Address PropAddress.
Local Open Scope string_scope.
Local Open Scope list_scope.

(** ** Indented lines *)

Lemma show_at bits c k inf : show bits (ECard c k inf) = (blanks (2 * k) ++ show bits (ECard c 0 []))%string.
Proof. destruct (ProofShow.show_text bits c) as (text & _ & T). rewrite !T. reflexivity. Qed.

Lemma blanks_more a b s : (blanks (a + b) ++ s = blanks a ++ blanks b ++ s)%string.
Proof. induction a as [|a IH]; [reflexivity|]. cbn [Nat.add blanks append]. rewrite IH. reflexivity. Qed.

Lemma indent_more k j l : map (append (blanks (2 * (k + j)))) l = map (append (blanks (2 * k))) (map (append (blanks (2 * j))) l).
Proof.
  rewrite map_map. apply map_ext. intros s. replace (2 * (k + j))%nat with (2 * k + 2 * j)%nat by lia. apply blanks_more.
Qed.

(** Lines depend on the format of addresses, the chain, and on whether amounts are in its unit. *)
Definition lines := (fixed_kind -> bytes -> N -> string) -> short_specs -> bool -> list string.

Definition prints (d : pdata) (L : lines) : Prop :=
  forall b58 icon specs name bits inf k u, map (show bits) (card b58 icon specs name d inf k u) = map (append (blanks (2 * k))) (L b58 specs u).

Fixpoint fields_print (fs : list (fdata pdata)) (l : list (string * lines)) : Prop :=
  match fs, l with
  | [], [] => True
  | f :: fs', (n, L) :: l' => fd_name f = Some n /\ prints (x_data (fd_data f)) L /\ fields_print fs' l'
  | _, _ => False
  end.

Definition field_lines (l : list (string * lines)) : lines := fun b58 specs u =>
  flat_map (fun x => ("Field Name: " ++ fst x)%string :: map (append "  ") (snd x b58 specs u)) l.

Lemma field_set_prints fs : forall l b58 icon specs name bits i k u, fields_print fs l ->
  map (show bits) (card_field_set (card b58 icon specs name) i fs k u) = map (append (blanks (2 * k))) (field_lines l b58 specs u).
Proof.
  induction fs as [|f fs IH]; intros [|[n L] l] b58 icon specs name bits i k u H; try contradiction H; [reflexivity|].
  destruct H as (Hn & Hp & Hr). cbn [card_field_set]. rewrite Hn. unfold field_lines. cbn [map flat_map fst snd]. rewrite !map_app, (IH l), show_at by exact Hr.
  unfold card_ext_with. rewrite Hp. unfold field_lines. rewrite indent_more. cbn [map app]. reflexivity.
Qed.

Lemma struct_prints fs l : (2 <= List.length fs)%nat -> fields_print fs l ->
  prints (DComposite fs) (fun b58 specs u => ("Struct: " ++ dec_string (N.of_nat (List.length fs)) ++ " field(s)")%string :: map (append "  ") (field_lines l b58 specs u)).
Proof.
  intros Hn H b58 icon specs name bits inf k u. destruct fs as [|f1 [|f2 fs] ]; cbn [List.length] in Hn; try lia.
  cbn [card map]. rewrite show_at. f_equal.
  rewrite (field_set_prints _ l) by exact H. apply indent_more.
Qed.

Lemma event_prints info docs pallet name fs l : fields_print fs l ->
  prints (DEvent (PSData info docs pallet name fs)) (fun b58 specs _ =>
    ("Pallet: " ++ pallet)%string :: ("  Event: " ++ name)%string ::
    map (append "    ") (field_lines l b58 specs (str_in pallet PALLETS_BALANCE_VALID))).
Proof.
  intros H b58 icon specs cn bits inf k u. cbn [card]. unfold card_pallet_specific. cbn [map ps_fields ps_pallet_name ps_variant_name].
  assert (Hs : forall u, card_variant_fields (card b58 icon specs cn) fs (k + 2) u = card_field_set (card b58 icon specs cn) 0 fs (k + 2) u).
  { intros u'. destruct fs as [|f [|g fs] ]; [reflexivity| |reflexivity]. destruct l as [|[n L] l]; [contradiction H|]. destruct H as (Hn & _). cbn [card_variant_fields]. rewrite Hn. reflexivity. }
  rewrite Hs, (field_set_prints _ l) by exact H. rewrite show_at. f_equal. rewrite show_at, Nat.mul_add_distr_l, blanks_more. f_equal.
  rewrite (indent_more k 2). reflexivity.
Qed.

Lemma unit_prints name docs : prints (DVariant (VData name docs [])) (fun _ _ _ => ["Enum"; ("  Enum Variant Name: " ++ name)%string]).
Proof.
  intros b58 icon specs cn bits inf k u. cbn [card map card_variant_fields card_field_set vd_fields vd_name].
  rewrite show_at. f_equal. rewrite show_at, Nat.mul_add_distr_l, blanks_more. reflexivity.
Qed.

Lemma single_prints name docs f L : fd_name f = None -> prints (x_data (fd_data f)) L ->
  prints (DVariant (VData name docs [f])) (fun b58 specs u => "Enum" :: ("  Enum Variant Name: " ++ name)%string :: map (append "    ") (L b58 specs u)).
Proof.
  intros Hn Hp b58 icon specs cn bits inf k u. cbn [card map card_variant_fields vd_fields vd_name]. rewrite Hn. unfold card_unnamed_single_field. rewrite Hp.
  rewrite show_at. f_equal. rewrite show_at, Nat.mul_add_distr_l, blanks_more. f_equal. rewrite (indent_more k 2). reflexivity.
Qed.

Lemma sequence_prints A (ds : A -> pdata) (Ls : A -> lines) inf0 l : Forall (fun a => prints (ds a) (Ls a)) l ->
  prints (DSequenceRaw inf0 (map ds l)) (fun b58 specs u =>
    ("Sequence: " ++ dec_string (N.of_nat (List.length l)) ++ " element(s)")%string :: map (append "  ") (flat_map (fun a => Ls a b58 specs u) l)).
Proof.
  intros H b58 icon specs cn bits inf k u. cbn [card map]. rewrite map_length, show_at. f_equal.
  change "  " with (blanks (2 * 1)). rewrite <- indent_more.
  assert (G : forall m, map (show bits) (card_elements (card b58 icon specs cn) (map ds l) m u) = map (append (blanks (2 * m))) (flat_map (fun a => Ls a b58 specs u) l)).
  { intros m. clear - H. induction H as [|a l Ha _ IH]; [reflexivity|]. cbn [map card_elements flat_map]. rewrite !map_app, IH, Ha. reflexivity. }
  apply G.
Qed.

Lemma number_prints w n : prints (DUInt w n SuNone) (fun _ _ _ => [(uint_name w ++ ": " ++ dec_string n)%string]).
Proof. intros b58 icon specs cn bits inf k u. cbn [card map specialty_card]. rewrite show_at. reflexivity. Qed.
Lemma who_prints who : prints (DFixed KAccountId32 who) (fun b58 specs _ => [("Id: " ++ b58 KAccountId32 who (base58prefix specs))%string]).
Proof. intros b58 icon specs cn bits inf k u. cbn [card map fixed_card]. rewrite show_at. reflexivity. Qed.
Lemma amount_prints w n : prints (DUInt w n SuBalance) (fun _ specs u => [if u then ("Balance: " ++ money specs n)%string else ("Balance Raw: " ++ dec_string n)%string]).
Proof. intros b58 icon specs cn bits inf k u. cbn [card map specialty_card]. rewrite show_at. destruct u; reflexivity. Qed.
Lemma hash_prints h : prints (DHash ShNone h) (fun _ _ _ => [("H256: " ++ hex_encode h)%string]).
Proof. intros b58 icon specs cn bits inf k u. cbn [card map]. rewrite show_at. reflexivity. Qed.

Lemma prints_as d L L' : (forall b58 specs u, L b58 specs u = L' b58 specs u) -> prints d L -> prints d L'.
Proof. intros E H b58 icon specs cn bits inf k u. rewrite H, E. reflexivity. Qed.

Definition fields_full (fs : list (fdata pdata)) : Prop := Forall (fun f => nothing_hidden (x_data (fd_data f))) fs.

Lemma struct_full fs : fields_full fs -> nothing_hidden (DComposite fs).
Proof. intros H. split; [exact I|]. induction H as [|f fs H _ IH]; [exact I|split; assumption]. Qed.
Lemma event_full info docs pallet name fs : fields_full fs -> nothing_hidden (DEvent (PSData info docs pallet name fs)).
Proof. intros H. split; [exact I|]. cbn [ps_fields]. induction H as [|f fs H _ IH]; [exact I|split; assumption]. Qed.
Lemma variant_full name docs fs : fields_full fs -> nothing_hidden (DVariant (VData name docs fs)).
Proof. intros H. split; [exact I|]. cbn [vd_fields]. induction H as [|f fs H _ IH]; [exact I|split; assumption]. Qed.
Lemma sequence_full inf l : Forall nothing_hidden l -> nothing_hidden (DSequenceRaw inf l).
Proof. intros H. split; [exact I|]. induction H as [|d l H _ IH]; [exact I|split; assumption]. Qed.

(** ** Values *)

Lemma u64 n : (n < 2 ^ 64)%N -> fits U64 n = true. Proof. apply N.ltb_lt. Qed.

Section Values.
Variable types : list ty.

(** [v] is written as [bs], understood as [d], and shown as [L], also as an element of a vector. *)
Definition shown_as (h : hint) (id : N) (bs : bytes) (v : value) (d : pdata) (L : lines) : Prop :=
  enc types false id v = Some bs /\ (forall e, exists info, view types e h id v = Some (d, info)) /\ nothing_hidden d /\ prints d L.

Definition can_show (h : hint) (id : N) (bs : bytes) (L : lines) : Prop := exists v d, shown_as h id bs v d L.

Lemma can_show_as h id bs L L' : (forall b58 specs u, L b58 specs u = L' b58 specs u) -> can_show h id bs L -> can_show h id bs L'.
Proof. intros E (v & d & H1 & H2 & H3 & H4). exists v, d. refine (conj H1 (conj H2 (conj H3 _))). exact (prints_as _ _ _ E H4). Qed.

Lemma show_number id w n : number_type types w id -> fits w n = true -> can_show HNone id (le_bytes (usize w) n) (fun _ _ _ => [(uint_name w ++ ": " ++ dec_string n)%string]).
Proof.
  intros (t & Hl & Hc & Hd) Hf. exists (VNum n), (DUInt w n SuNone). refine (conj _ (conj _ (conj (conj I I) (number_prints w n)))).
  - cbn [enc]. rewrite Hl. unfold def_of. rewrite Hc, Hd. unfold guard. rewrite Hf. reflexivity.
  - intros e. exists (own_info t). cbn [view]. rewrite Hl. unfold def_of. rewrite Hc, Hd. reflexivity.
Qed.

Lemma show_compact id w n : compact_number types w id -> fits w n = true -> can_show HNone id (compact_enc n) (fun _ _ _ => [(uint_name w ++ ": " ++ dec_string n)%string]).
Proof.
  intros (j & (t & Hl & Hc & Hd) & (t' & Hl' & Hc' & Hd')) Hf.
  exists (VCompact (VNum n)), (DUInt w n SuNone). refine (conj _ (conj _ (conj (conj I I) (number_prints w n)))).
  - cbn [enc]. rewrite Hl. unfold def_of. rewrite Hc, Hd. cbn [enc]. rewrite Hl'. unfold def_of. rewrite Hc', Hd'. unfold guard. rewrite Hf. reflexivity.
  - intros e. exists (own_info t ++ own_info t'). cbn [view]. rewrite Hl. unfold def_of. rewrite Hc, Hd. cbn [view]. rewrite Hl'. unfold def_of. rewrite Hc', Hd'. reflexivity.
Qed.

Lemma show_amount id n : number_type types U128 id -> fits U128 n = true ->
  can_show HFieldBalance id (le_bytes 16 n) (fun _ specs u => [if u then ("Balance: " ++ money specs n)%string else ("Balance Raw: " ++ dec_string n)%string]).
Proof.
  intros (t & Hl & Hc & Hd) Hf. exists (VNum n), (DUInt U128 n SuBalance). refine (conj _ (conj _ (conj (conj I I) (amount_prints U128 n)))).
  - cbn [enc]. rewrite Hl. unfold def_of. rewrite Hc, Hd. unfold guard. rewrite Hf. reflexivity.
  - intros e. exists (own_info t). cbn [view]. rewrite Hl. unfold def_of. rewrite Hc, Hd. reflexivity.
Qed.

Lemma show_who h id who : recognised types id (SpRaw KAccountId32) -> is_bytes who -> List.length who = 32%nat ->
  can_show h id who (fun b58 specs _ => [("Id: " ++ b58 KAccountId32 who (base58prefix specs))%string]).
Proof.
  intros (t & Hl & Hc) Hb Hn. exists (VRaw who), (DFixed KAccountId32 who). refine (conj _ (conj _ (conj (conj I I) (who_prints who)))).
  - cbn [enc]. rewrite Hl, Hc. unfold guard. rewrite (is_bytesb_ok who Hb), Hn. reflexivity.
  - intros e. exists (own_info t). cbn [view]. rewrite Hl, Hc. reflexivity.
Qed.

Lemma show_hash id l : recognised types id SpHash -> is_bytes l -> List.length l = 32%nat ->
  exists d, shown_as HNone id l (VRaw l) d (fun _ _ _ => [("H256: " ++ hex_encode l)%string]) /\ d = DHash ShNone l.
Proof.
  intros (t & Hl & Hc) Hb Hn. exists (DHash ShNone l). split; [|reflexivity]. refine (conj _ (conj _ (conj (conj I I) (hash_prints l)))).
  - cbn [enc]. rewrite Hl, Hc. unfold guard. rewrite (is_bytesb_ok l Hb), Hn. reflexivity.
  - intros e. exists (own_info t). cbn [view]. rewrite Hl, Hc. reflexivity.
Qed.

(** *** Fields *)

Inductive fields_show : list field -> list bytes -> list (string * lines) -> Prop :=
| FS_nil : fields_show [] [] []
| FS_cons f fs n bs l L r : f_name f = Some n -> can_show (field_label f) (f_ty f) bs L -> fields_show fs l r -> fields_show (f :: fs) (bs :: l) ((n, L) :: r).

Lemma pass_none n : pass_label HNone n = HNone.
Proof. unfold pass_label. destruct (Nat.leb 2 n); reflexivity. Qed.

Lemma fields_made fs l r n : fields_show fs l r -> exists vs fds,
  enc_list (fun f => enc types false (f_ty f)) fs vs = Some (List.concat l) /\
  view_list (fun f v => option_map (field_form f) (view types false (or_label (pass_label HNone n) (field_label f)) (f_ty f) v)) fs vs = Some fds /\
  fields_full fds /\ fields_print fds r /\ List.length fds = List.length fs.
Proof.
  intros H. induction H as [|f fs m bs l L r Hn (v & d & E & V & N & P) _ (vs & fds & E' & V' & N' & P' & S)].
  - exists [], []. repeat split. constructor.
  - destruct (V false) as (info & V0). exists (v :: vs), (field_form f (d, info) :: fds). rewrite enc_list_cons, view_list_cons, E, E', V', pass_none.
    cbn [or_label]. rewrite V0. refine (conj eq_refl (conj eq_refl (conj _ (conj _ _)))).
    + constructor; assumption.
    + cbn [fields_print]. refine (conj Hn (conj P P')).
    + cbn [List.length]. rewrite S. reflexivity.
Qed.

Lemma show_struct id fs l r : ordinary types id (TComposite fs) -> (2 <= List.length fs)%nat -> fields_show fs l r ->
  exists v fds, shown_as HNone id (List.concat l) v (DComposite fds) (fun b58 specs u =>
    ("Struct: " ++ dec_string (N.of_nat (List.length fs)) ++ " field(s)")%string :: map (append "  ") (field_lines r b58 specs u)).
Proof.
  intros (t & Hl & Hc & Hd) Hn H. destruct (fields_made fs l r (List.length fs) H) as (vs & fds & E & V & F & P & S).
  assert (Ht : transparent t = None).
  { unfold transparent. rewrite Hc, Hd. destruct (strs_eqb (t_path t) opaque_path); [reflexivity|]. destruct fs as [|f [|g fs] ]; cbn [List.length] in Hn; try lia; reflexivity. }
  exists (VStruct vs), fds. refine (conj _ (conj _ (conj (struct_full fds F) _))).
  - cbn [enc]. rewrite Hl. unfold def_of. rewrite Hc, Hd. exact E.
  - intros e. exists (own_info t). rewrite (PropBatch.view_plain types e _ _ _ t Hl Ht). cbn [view]. rewrite Hl. unfold def_of. rewrite Hc, Hd, V. reflexivity.
  - rewrite <- S. apply struct_prints; [rewrite S; exact Hn|exact P].
Qed.

(** *** Vectors *)

Lemma show_sequence A id el (bs : A -> bytes) (Ls : A -> lines) l : ordinary types id (TSequence el) ->
  (exists t, lookup types el = Some t /\ transparent t = None) -> fits U32 (N.of_nat (List.length l)) = true ->
  Forall (fun a => exists v d, shown_as HNone el (bs a) v d (Ls a) /\ forall ds, collect (d :: ds) = None) l ->
  can_show HNone id (compact_enc (N.of_nat (List.length l)) ++ flat_map bs l) (fun b58 specs u =>
    ("Sequence: " ++ dec_string (N.of_nat (List.length l)) ++ " element(s)")%string :: map (append "  ") (flat_map (fun a => Ls a b58 specs u) l)).
Proof.
  intros (t & Hl & Hc & Hd) (te & Hle & Hte) Hfit H.
  assert (G : exists zs : list (A * value * pdata), map (fun z => fst (fst z)) zs = l /\
    Forall (fun z => shown_as HNone el (bs (fst (fst z))) (snd (fst z)) (snd z) (Ls (fst (fst z))) /\ forall ds, collect (snd z :: ds) = None) zs).
  { clear - H. induction H as [|a l (v & d & H) _ (zs & E & F)]; [exists []; split; [reflexivity|constructor]|].
    exists ((a, v, d) :: zs). cbn [map fst snd]. rewrite E. split; [reflexivity|constructor; assumption]. }
  destruct G as (zs & El & F).
  assert (E : enc_all (enc types false el) (map (fun z => snd (fst z)) zs) = Some (flat_map bs l)).
  { rewrite <- El. clear - F. induction F as [|z zs ((E & _) & _) _ IH]; [reflexivity|]. cbn [map flat_map].
    transitivity (match enc types false el (snd (fst z)), enc_all (enc types false el) (map (fun z => snd (fst z)) zs) with Some a, Some b => Some (a ++ b) | _, _ => None end);
    [reflexivity|]. rewrite E, IH. reflexivity. }
  assert (V : (fix go (vs : list value) : option (list pdata) :=
     match vs with
     | [] => Some []
     | v :: vs' => match view types true HNone el v, go vs' with Some (d, _), Some ds => Some (d :: ds) | _, _ => None end
     end) (map (fun z => snd (fst z)) zs) = Some (map snd zs)).
  { clear - F. induction F as [|z zs ((_ & V & _) & _) _ IH]; [reflexivity|]. cbn [map]. destruct (V true) as (info & V0). rewrite V0, IH. reflexivity. }
  assert (Hpeel : peel_from types [] el = Some (own_info te, el)) by (unfold peel_from; cbn [peel existsb]; rewrite Hle, Hte; reflexivity).
  assert (Hseq : sequence_of (own_info te) (map snd zs) = DSequenceRaw (own_info te) (map snd zs)).
  { unfold sequence_of. destruct zs as [|z zs]; [reflexivity|]. inversion F as [|? ? (_ & Hz) _]. cbn [map]. rewrite Hz. reflexivity. }
  assert (Hlen : List.length l = List.length zs) by (rewrite <- El; apply map_length).
  exists (VSeq (map (fun z => snd (fst z)) zs)), (DSequenceRaw (own_info te) (map snd zs)). refine (conj _ (conj _ (conj _ _))).
  - cbn [enc]. rewrite Hl. unfold def_of. rewrite Hc, Hd, map_length, <- Hlen, Hfit, E. reflexivity.
  - intros e. exists (own_info t). cbn [view]. rewrite Hl. unfold def_of. rewrite Hc, Hd, Hpeel, V, Hseq. reflexivity.
  - apply sequence_full. clear - F. induction F as [|z zs ((_ & _ & N & _) & _) _ IH]; constructor; assumption.
  - eapply prints_as; [|apply (sequence_prints _ snd (fun z => Ls (fst (fst z))))].
    + intros b58 specs u. cbn beta. rewrite Hlen. f_equal. f_equal. rewrite <- El. clear. induction zs as [|z zs IH]; [reflexivity|]. cbn [map flat_map]. rewrite IH. reflexivity.
    + clear - F. induction F as [|z zs ((_ & _ & _ & P) & _) _ IH]; constructor; assumption.
Qed.

(** *** Enums *)

Lemma show_unit h id l n name : ordinary types id (TVariant l) -> has_variant l n name [] -> (n < 256)%N ->
  can_show h id [n] (fun _ _ _ => ["Enum"; ("  Enum Variant Name: " ++ name)%string]).
Proof.
  intros (t & Hl & Hc & Hd) (v & Hi & Hn & Hf) Hlt. apply N.ltb_lt in Hlt.
  assert (Hsig : variant_sig types t v = None) by (unfold variant_sig; rewrite Hc; reflexivity).
  assert (Hpi : pallet_items types t v = None) by (unfold pallet_items; rewrite Hf; reflexivity).
  exists (VEnum n []), (DVariant (VData name (docs_text (v_docs v)) [])). refine (conj _ (conj _ (conj _ (unit_prints name _)))).
  - cbn [enc]. rewrite Hl. unfold def_of. rewrite Hc, Hd, Hi, Hsig, Hpi, Hf, Hlt. reflexivity.
  - intros e. exists (own_info t). cbn [view]. rewrite Hl. unfold def_of. rewrite Hc, Hd, Hi, Hf. cbn [view_list]. rewrite Hn. reflexivity.
  - apply variant_full. constructor.
Qed.

Lemma show_single id l n name f w m : ordinary types id (TVariant l) -> has_variant l n name [f] -> (n < 256)%N ->
  f_name f = None -> field_label f = HNone -> number_type types w (f_ty f) -> fits w m = true ->
  can_show HNone id (n :: le_bytes (usize w) m) (fun _ _ _ => ["Enum"; ("  Enum Variant Name: " ++ name)%string; ("    " ++ uint_name w ++ ": " ++ dec_string m)%string]).
Proof.
  intros (t & Hl & Hc & Hd) (v & Hi & Hn & Hf) Hlt Hfn Hlab Ht Hm. apply N.ltb_lt in Hlt.
  destruct (show_number _ w m Ht Hm) as (vn & d & E & V & N & P). destruct (V false) as (info & V0).
  assert (Hsig : variant_sig types t v = None) by (unfold variant_sig; rewrite Hc; reflexivity).
  assert (Hpi : pallet_items types t v = None).
  { destruct Ht as (tf & Hlf & _ & Hdf). unfold pallet_items. rewrite Hf, Hlf, Hdf. reflexivity. }
  exists (VEnum n [vn]), (DVariant (VData name (docs_text (v_docs v)) [field_form f (d, info)])). refine (conj _ (conj _ (conj _ _))).
  - cbn [enc]. rewrite Hl. unfold def_of. rewrite Hc, Hd, Hi, Hsig, Hpi, Hf, Hlt, enc_list_cons, E. cbn [enc_list negb andb option_map]. rewrite app_nil_r. reflexivity.
  - intros e. exists (own_info t). cbn [view]. rewrite Hl. unfold def_of. rewrite Hc, Hd, Hi, Hf, view_list_cons, Hlab, pass_none.
    cbn [or_label]. rewrite V0. cbn [view_list option_map]. rewrite Hn. reflexivity.
  - apply variant_full. constructor; [exact N|constructor].
  - eapply prints_as; [|apply (single_prints name _ (field_form f (d, info)) _ Hfn P)]. reflexivity.
Qed.

(** *** Events *)

Lemma show_class id c : class_type types id ->
  can_show HNone id (class_bytes c) (fun _ _ _ => ["Enum"; ("  Enum Variant Name: " ++ match c with Normal => "Normal" | Operational => "Operational" | Mandatory => "Mandatory" end)%string]).
Proof. intros (l & Ho & H0 & H1 & H2). destruct c; eapply show_unit; try eassumption; reflexivity. Qed.

Lemma show_paid id (p : bool) : paid_type types id ->
  can_show HNone id (paid_bytes p) (fun _ _ _ => ["Enum"; ("  Enum Variant Name: " ++ if p then "Yes" else "No")%string]).
Proof. intros (l & Ho & H0 & H1). destruct p; eapply show_unit; try eassumption; reflexivity. Qed.

Lemma show_dispatch id d : dispatch_type types id -> fits U64 (di_time d) = true -> fits U64 (di_size d) = true ->
  can_show HNone id (dispatch_bytes d) (fun b58 specs _ => argument_lines b58 specs "" (Executed d)).
Proof.
  intros (f1 & f2 & f3 & Ho & (N1 & L1 & (g1 & g2 & Hw & (M1 & K1 & T1) & (M2 & K2 & T2))) & (N2 & L2 & C2) & (N3 & L3 & C3)) Ht Hs.
  assert (W : exists L, can_show HNone (f_ty f1) (compact_enc (di_time d) ++ compact_enc (di_size d)) L /\ forall b58 specs u, L b58 specs u =
    ["Struct: 2 field(s)"; "  Field Name: ref_time"; ("    u64: " ++ dec_string (di_time d))%string; "  Field Name: proof_size"; ("    u64: " ++ dec_string (di_size d))%string]).
  { pose proof (show_struct (f_ty f1) [g1; g2] [compact_enc (di_time d); compact_enc (di_size d)]
      [("ref_time", fun _ _ _ => [("u64: " ++ dec_string (di_time d))%string]); ("proof_size", fun _ _ _ => [("u64: " ++ dec_string (di_size d))%string])] Hw (le_n 2)) as G.
    cbn [List.concat] in G. rewrite app_nil_r in G. destruct G as (v & fds & G).
    - repeat apply FS_cons; try apply FS_nil; try assumption; [rewrite K1; exact (show_compact _ U64 _ T1 Ht)|rewrite K2; exact (show_compact _ U64 _ T2 Hs)].
    - eexists. split; [exists v, (DComposite fds); exact G|]. reflexivity. }
  destruct W as (LW & W & EW).
  pose proof (show_struct id [f1; f2; f3] [compact_enc (di_time d) ++ compact_enc (di_size d); class_bytes (di_class d); paid_bytes (di_paid d)]
      [("weight", LW); ("class", fun _ _ _ => ["Enum"; ("  Enum Variant Name: " ++ match di_class d with Normal => "Normal" | Operational => "Operational" | Mandatory => "Mandatory" end)%string]);
       ("pays_fee", fun _ _ _ => ["Enum"; ("  Enum Variant Name: " ++ if di_paid d then "Yes" else "No")%string])] Ho (le_S _ _ (le_n 2))) as G.
  cbn [List.concat] in G. rewrite app_nil_r, <- app_assoc in G. destruct G as (v & fds & G1 & G2 & G3 & G4).
  - repeat apply FS_cons; try apply FS_nil; try assumption; [rewrite L1; exact W|rewrite L2; apply show_class, C2|rewrite L3; apply show_paid, C3].
  - exists v, (DComposite fds). refine (conj G1 (conj G2 (conj G3 _))). eapply prints_as; [|exact G4]. intros b58 specs u. unfold field_lines. cbn [flat_map fst snd]. rewrite EW. reflexivity.
Qed.

Lemma arguments_show fs args : Forall2 (argument_field types) fs args -> exists r, fields_show fs (map (fun x => argument_bytes (snd x)) args) r /\
  forall b58 specs pallet, field_lines r b58 specs (str_in pallet PALLETS_BALANCE_VALID) =
    flat_map (fun x => ("Field Name: " ++ fst x)%string :: map (append "  ") (argument_lines b58 specs pallet (snd x))) args.
Proof.
  induction 1 as [|f x fs args (Hn & Hx) _ (r & F & R)]; [exists []; split; [constructor|reflexivity]|].
  destruct x as [n a]. cbn [fst snd] in *.
  assert (G : exists L, can_show (field_label f) (f_ty f) (argument_bytes a) L /\
    forall b58 specs pallet, L b58 specs (str_in pallet PALLETS_BALANCE_VALID) = argument_lines b58 specs pallet a).
  { destruct a as [who|m|d].
    - destruct Hx as (Ht & Hb & H32). eexists. split; [exact (show_who _ _ who Ht Hb H32)|reflexivity].
    - destruct Hx as (Hlab & Ht & Hm). rewrite Hlab. eexists. split; [exact (show_amount _ m Ht (PropBatch.u128 m Hm))|].
      intros b58 specs pallet. cbn [argument_lines]. unfold str_in, PALLETS_BALANCE_VALID. cbn [existsb]. rewrite orb_false_r. destruct (_ || _); reflexivity.
    - destruct Hx as (Hlab & Ht & H1 & H2). rewrite Hlab. eexists. split; [exact (show_dispatch _ d Ht (u64 _ H1) (u64 _ H2))|]. reflexivity. }
  destruct G as (L & GS & GL). exists ((n, L) :: r). split; [cbn [map snd]; constructor; assumption|].
  intros b58 specs pallet. unfold field_lines in *. cbn [flat_map fst snd]. rewrite R, GL. reflexivity.
Qed.

Lemma show_event event_ty e : event_known types event_ty e -> can_show HNone event_ty (event_bytes e) (fun b58 specs _ => event_lines b58 specs e).
Proof.
  intros (t & pallets & pallet & f & inner & items & item & Hl & Hc & Hd & Hi & Hpn & Hpf & Hli & Hci & Hdi & Hj & Hin & Hargs & Li & Lj).
  destruct (arguments_show _ _ Hargs) as (r & F & R). destruct (fields_made _ _ _ (List.length (v_fields item)) F) as (vs & fds & E & V & N & P & _).
  assert (Hpi : pallet_items types t pallet = Some (inner, items)) by (unfold pallet_items; rewrite Hpf, Hli, Hdi, Hc, Hci; reflexivity).
  assert (Ht : transparent t = None) by (unfold transparent; rewrite Hc; reflexivity).
  apply N.ltb_lt in Li, Lj.
  exists (VItem (ev_i e) (ev_j e) vs), (DEvent (PSData (Info (docs_text (t_docs inner)) (t_path inner)) (docs_text (v_docs item)) (ev_pallet e) (ev_name e) fds)).
  refine (conj _ (conj _ (conj (event_full _ _ _ _ _ N) _))).
  - cbn [enc]. rewrite Hl. unfold def_of. rewrite Hc, Hd, Hi, Hpi, Hj, Li, Lj, E. unfold event_bytes. rewrite flat_map_concat_map. reflexivity.
  - intros x. exists (own_info t). rewrite (PropBatch.view_plain types x _ _ _ t Hl Ht). cbn [view]. rewrite Hl. unfold def_of. rewrite Hc, Hd, Hi, Hpi, Hj, V, Hpn, Hin. reflexivity.
  - eapply prints_as; [|apply (event_prints _ _ _ _ _ r P)]. intros b58 specs u. cbn beta. rewrite R. unfold event_lines. f_equal. f_equal.
    clear. induction (ev_args e) as [|x l IH]; [reflexivity|]. cbn [flat_map map app].
    rewrite map_app, map_map, IH. reflexivity.
Qed.

Lemma show_phase id p : phase_type types id -> match p with InExtrinsic n => (n < 2 ^ 32)%N | _ => True end ->
  can_show HNone id (phase_bytes p) (fun _ _ _ => phase_lines p).
Proof.
  intros (l & f & Ho & H0 & Hn & Hlab & Ht & H1 & H2) Hp. destruct p as [n| |].
  - exact (show_single id l 0 "ApplyExtrinsic" f U32 n Ho H0 eq_refl Hn Hlab Ht (PropBatch.u32 n Hp)).
  - exact (show_unit HNone id l 1 "Finalization" Ho H1 eq_refl).
  - exact (show_unit HNone id l 2 "Initialization" Ho H2 eq_refl).
Qed.

Lemma show_hashes id l : hashes_type types id -> (N.of_nat (List.length l) < 2 ^ 32)%N -> Forall (fun h => is_bytes h /\ List.length h = 32%nat) l ->
  can_show HNone id (compact_enc (N.of_nat (List.length l)) ++ List.concat l) (fun _ _ _ =>
    ("Sequence: " ++ dec_string (N.of_nat (List.length l)) ++ " element(s)")%string :: map (fun h => "  H256: " ++ hex_encode h)%string l).
Proof.
  intros (el & Ho & Hh) Hn H. pose proof (PropBatch.u32 _ Hn) as Hfit.
  assert (Ht : exists t, lookup types el = Some t /\ transparent t = None).
  { destruct Hh as (t & Hl & Hc). exists t. split; [exact Hl|]. unfold transparent. rewrite Hc. reflexivity. }
  pose proof (show_sequence bytes id el (fun h => h) (fun h _ _ _ => [("H256: " ++ hex_encode h)%string]) l Ho Ht Hfit) as S.
  rewrite flat_map_concat_map, map_id in S. eapply can_show_as; [|apply S].
  - intros b58 specs u. cbn beta. f_equal. clear. induction l as [|h l IH]; [reflexivity|]. cbn [flat_map map app]. rewrite IH. reflexivity.
  - clear - H Hh. induction H as [|h l (H1 & H2) _ IH]; constructor; [|exact IH]. destruct (show_hash el h Hh H1 H2) as (d & Hs & Hd).
    exists (VRaw h), d. split; [exact Hs|]. rewrite Hd. reflexivity.
Qed.

Lemma show_events event_ty id l : events_type types event_ty id -> (N.of_nat (List.length l) < 2 ^ 32)%N -> Forall (happening_known types event_ty) l ->
  can_show HNone id (events_bytes l) (fun b58 specs _ => events_lines b58 specs l).
Proof.
  intros (r & f1 & f2 & f3 & Hs & Ho & (N1 & L1 & T1) & (N2 & L2 & T2) & (N3 & L3 & T3)) Hn H.
  assert (Ht : exists t, lookup types r = Some t /\ transparent t = None).
  { destruct Ho as (t & Hl & Hc & Hd). exists t. split; [exact Hl|]. unfold transparent. rewrite Hc, Hd. destruct (strs_eqb _ _); reflexivity. }
  pose proof (show_sequence happening id r happening_bytes (fun x b58 specs _ => happening_lines b58 specs x) l Hs Ht (PropBatch.u32 _ Hn)) as S.
  eapply can_show_as; [|apply S].
  - intros b58 specs u. cbn beta. unfold events_lines. f_equal. clear. induction l as [|x l IH]; [reflexivity|]. cbn [flat_map]. rewrite map_app, IH. reflexivity.
  - clear - H Ho N1 L1 T1 N2 L2 T2 N3 L3 T3. induction H as [|x l (Hp & He & Hk & Hh) _ IH]; constructor; [|exact IH]. clear IH.
    pose proof (show_struct r [f1; f2; f3] [phase_bytes (ha_phase x); event_bytes (ha_event x);
        compact_enc (N.of_nat (List.length (ha_topics x))) ++ List.concat (ha_topics x)]
        [("phase", fun _ _ _ => phase_lines (ha_phase x)); ("event", fun b58 specs _ => event_lines b58 specs (ha_event x));
         ("topics", fun _ _ _ => ("Sequence: " ++ dec_string (N.of_nat (List.length (ha_topics x))) ++ " element(s)")%string :: map (fun h => "  H256: " ++ hex_encode h)%string (ha_topics x))]
        Ho (le_S _ _ (le_n 2))) as G.
    cbn [List.concat] in G. rewrite app_nil_r in G. destruct G as (v & fds & G1 & G2 & G3 & G4).
    + repeat apply FS_cons; try apply FS_nil; try assumption.
      * rewrite L1. apply show_phase; assumption.
      * rewrite L2, <- T2. apply show_event, He.
      * rewrite L3. apply show_hashes; assumption.
    + exists v, (DComposite fds). split; [|reflexivity]. refine (conj G1 (conj G2 (conj G3 _))). eapply prints_as; [|exact G4].
      intros b58 specs u. cbn beta. unfold field_lines, happening_lines. cbn [flat_map fst snd app map List.length]. rewrite !map_app. cbn [map app]. rewrite !map_app. cbn [map app].
      rewrite !map_map, app_nil_r, ?map_map. reflexivity.
Qed.
End Values.

(** ** The bytes tell the events *)

Lemma same_length A (a b r s : list A) : List.length a = List.length b -> a ++ r = b ++ s -> a = b /\ r = s.
Proof.
  revert b. induction a as [|x a IH]; intros [|y b] Hl H; try discriminate Hl; [split; [reflexivity|exact H]|].
  injection H as -> H. injection Hl as Hl. destruct (IH b Hl H) as [-> ->]. auto.
Qed.

Lemma le_told k n m r s : (n < 256 ^ N.of_nat k)%N -> (m < 256 ^ N.of_nat k)%N -> le_bytes k n ++ r = le_bytes k m ++ s -> n = m /\ r = s.
Proof.
  intros Hn Hm H. apply same_length in H; [|rewrite !le_bytes_length; reflexivity]. destruct H as [H E]. split; [|exact E].
  rewrite <- (le_val_le_bytes k n Hn), <- (le_val_le_bytes k m Hm), H. reflexivity.
Qed.
Lemma le4_told n m r s : (n < 2 ^ 32)%N -> (m < 2 ^ 32)%N -> le_bytes 4 n ++ r = le_bytes 4 m ++ s -> n = m /\ r = s.
Proof. apply (le_told 4). Qed.
Lemma le16_told n m r s : (n < 2 ^ 128)%N -> (m < 2 ^ 128)%N -> le_bytes 16 n ++ r = le_bytes 16 m ++ s -> n = m /\ r = s.
Proof. apply (le_told 16). Qed.
Lemma length_told n m r s : (n < 2 ^ 32)%N -> (m < 2 ^ 32)%N -> compact_enc n ++ r = compact_enc m ++ s -> n = m /\ r = s.
Proof. intros Hn Hm. apply (ProofPrefixFree.compact_free U32); apply PropBatch.u32; assumption. Qed.
Lemma compact64_told n m r s : (n < 2 ^ 64)%N -> (m < 2 ^ 64)%N -> compact_enc n ++ r = compact_enc m ++ s -> n = m /\ r = s.
Proof. intros Hn Hm. apply (ProofPrefixFree.compact_free U64); apply u64; assumption. Qed.

Lemma phase_told p p' r s : match p with InExtrinsic n => (n < 2 ^ 32)%N | _ => True end -> match p' with InExtrinsic n => (n < 2 ^ 32)%N | _ => True end ->
  phase_bytes p ++ r = phase_bytes p' ++ s -> p = p' /\ r = s.
Proof.
  intros H1 H2 H. destruct p as [n| |], p' as [m| |]; cbn [phase_bytes app] in H; try discriminate H; apply (f_equal (@tl N)) in H; cbn [tl] in H; auto.
  destruct (le4_told n m r s H1 H2 H) as [-> ->]. auto.
Qed.

Lemma dispatch_told d d' r s : (di_time d < 2 ^ 64)%N -> (di_size d < 2 ^ 64)%N -> (di_time d' < 2 ^ 64)%N -> (di_size d' < 2 ^ 64)%N ->
  dispatch_bytes d ++ r = dispatch_bytes d' ++ s -> d = d' /\ r = s.
Proof.
  intros H1 H2 H3 H4 H. destruct d as [t z c p], d' as [t' z' c' p']. unfold dispatch_bytes in H. cbn [di_time di_size di_class di_paid] in *. rewrite <- !app_assoc in H.
  apply compact64_told in H; [|assumption|assumption]. destruct H as [-> H]. apply compact64_told in H; [|assumption|assumption]. destruct H as [-> H].
  destruct c, c'; cbn [class_bytes app] in H; try discriminate H; destruct p, p'; cbn [paid_bytes app] in H; try discriminate H; injection H as ->; auto.
Qed.

Section Told.
Variable types : list ty.

Lemma argument_told f x y r s : argument_field types f x -> argument_field types f y ->
  argument_bytes (snd x) ++ r = argument_bytes (snd y) ++ s -> x = y /\ r = s.
Proof.
  destruct x as [n a], y as [m b]. intros (N1 & A1) (N2 & A2) H. cbn [fst snd] in *. rewrite N1 in N2. injection N2 as ->.
  destruct a as [w|a|d], b as [w'|a'|d']; cbn [argument_bytes] in H.
  - destruct A1 as (_ & _ & L1), A2 as (_ & _ & L2). apply same_length in H; [|congruence]. destruct H as [-> ->]. auto.
  - destruct A1 as ((t & Hl & Hc) & _), A2 as (_ & (t' & Hl' & Hc' & _) & _). congruence.
  - destruct A1 as ((t & Hl & Hc) & _), A2 as (_ & (g1 & g2 & g3 & (t' & Hl' & Hc' & _) & _) & _). congruence.
  - destruct A2 as ((t & Hl & Hc) & _), A1 as (_ & (t' & Hl' & Hc' & _) & _). congruence.
  - destruct A1 as (_ & _ & L1), A2 as (_ & _ & L2). destruct (le16_told a a' r s L1 L2 H) as [-> ->]. auto.
  - destruct A1 as (K & _), A2 as (K' & _). congruence.
  - destruct A2 as ((t & Hl & Hc) & _), A1 as (_ & (g1 & g2 & g3 & (t' & Hl' & Hc' & _) & _) & _). congruence.
  - destruct A1 as (K & _), A2 as (K' & _). congruence.
  - destruct A1 as (_ & _ & L1 & L2), A2 as (_ & _ & L3 & L4). destruct (dispatch_told d d' r s L1 L2 L3 L4 H) as [-> ->]. auto.
Qed.

Lemma arguments_told fs xs : Forall2 (argument_field types) fs xs -> forall ys r s, Forall2 (argument_field types) fs ys ->
  flat_map (fun x => argument_bytes (snd x)) xs ++ r = flat_map (fun x => argument_bytes (snd x)) ys ++ s -> xs = ys /\ r = s.
Proof.
  induction 1 as [|f x fs xs Hx _ IH]; intros ys r s Hy H; inversion Hy as [|? y ? ys' Hy1 Hy2]; subst; [auto|].
  cbn [flat_map] in H. rewrite <- !app_assoc in H. apply (argument_told f x y) in H; [|assumption|assumption]. destruct H as [-> H].
  apply IH in H; [|assumption]. destruct H as [-> ->]. auto.
Qed.

Lemma event_told event_ty e e' r s : event_known types event_ty e -> event_known types event_ty e' -> event_bytes e ++ r = event_bytes e' ++ s -> e = e' /\ r = s.
Proof.
  destruct e as [i j pn n args], e' as [i' j' pn' n' args'].
  intros (t & pallets & pallet & f & inner & items & item & Hl & _ & Hd & Hi & Hpn & Hpf & Hli & _ & Hdi & Hj & Hin & Ha & _)
    (t' & pallets' & pallet' & f' & inner' & items' & item' & Hl' & _ & Hd' & Hi' & Hpn' & Hpf' & Hli' & _ & Hdi' & Hj' & Hin' & Ha' & _) H.
  cbn [ev_i ev_j ev_pallet ev_name ev_args] in *. unfold event_bytes in H. cbn [ev_i ev_j ev_args app] in H. injection H as E1 E2 H. rewrite <- E1, <- E2 in *.
  assert (Et : t' = t) by congruence. rewrite Et in *. assert (Ep : pallets' = pallets) by congruence. rewrite Ep in *.
  assert (El : pallet' = pallet) by congruence. rewrite El in *. assert (Ef : f' = f) by congruence. rewrite Ef in *.
  assert (En : inner' = inner) by congruence. rewrite En in *. assert (Em : items' = items) by congruence. rewrite Em in *.
  assert (Ei : item' = item) by congruence. rewrite Ei in *.
  apply (arguments_told _ _ Ha) in H; [|exact Ha']. destruct H as [-> ->]. split; [|reflexivity]. congruence.
Qed.

Lemma topics_told l : Forall (fun h : bytes => is_bytes h /\ List.length h = 32%nat) l -> forall l' r s, Forall (fun h => is_bytes h /\ List.length h = 32%nat) l' ->
  List.length l = List.length l' -> List.concat l ++ r = List.concat l' ++ s -> l = l' /\ r = s.
Proof.
  induction 1 as [|h l (_ & Hh) _ IH]; intros [|h' l'] r s Hl' Hn H; try discriminate Hn; [auto|]. inversion Hl' as [|? ? (_ & Hh') Hr]. subst.
  cbn [List.concat] in H. rewrite <- !app_assoc in H. apply same_length in H; [|congruence]. destruct H as [-> H]. injection Hn as Hn.
  destruct (IH l' r s Hr Hn H) as [-> ->]. auto.
Qed.

Lemma happening_told event_ty x y r s : happening_known types event_ty x -> happening_known types event_ty y ->
  happening_bytes x ++ r = happening_bytes y ++ s -> x = y /\ r = s.
Proof.
  destruct x as [p e l], y as [p' e' l']. intros (P1 & E1 & N1 & T1) (P2 & E2 & N2 & T2) H. cbn [ha_phase ha_event ha_topics] in *.
  unfold happening_bytes in H. cbn [ha_phase ha_event ha_topics] in H. rewrite <- !app_assoc in H.
  apply (phase_told _ _ _ _ P1 P2) in H. destruct H as [-> H]. apply (event_told _ _ _ _ _ E1 E2) in H. destruct H as [-> H].
  apply (length_told _ _ _ _ N1 N2) in H. destruct H as [Hn H]. apply Nnat.Nat2N.inj in Hn. apply (topics_told l T1 l' r s T2 Hn) in H. destruct H as [-> ->]. auto.
Qed.

Lemma happenings_told event_ty l : Forall (happening_known types event_ty) l -> forall l', Forall (happening_known types event_ty) l' ->
  List.length l = List.length l' -> flat_map happening_bytes l = flat_map happening_bytes l' -> l = l'.
Proof.
  induction 1 as [|x l Hx _ IH]; intros [|y l'] Hl' Hn H; try discriminate Hn; [reflexivity|]. inversion Hl' as [|? ? Hy Hr]. subst.
  cbn [flat_map] in H. apply (happening_told event_ty _ _ _ _ Hx Hy) in H. destruct H as [-> H]. injection Hn as Hn. rewrite (IH l' Hr Hn H). reflexivity.
Qed.

Lemma events_told event_ty l l' : (N.of_nat (List.length l) < 2 ^ 32)%N -> Forall (happening_known types event_ty) l ->
  (N.of_nat (List.length l') < 2 ^ 32)%N -> Forall (happening_known types event_ty) l' -> events_bytes l = events_bytes l' -> l = l'.
Proof.
  intros N1 H1 N2 H2 H. apply (length_told _ _ _ _ N1 N2) in H. destruct H as [Hn H]. apply Nnat.Nat2N.inj in Hn. exact (happenings_told event_ty l H1 l' H2 Hn H).
Qed.
End Told.

(** ** Theorems *)

Lemma can_show_whole types id bs L : acyclic types -> can_show types HNone id bs L ->
  exists x, encodes types id bs x /\ is_bytes bs /\ nothing_hidden (x_data x) /\
    forall b58 icon specs name bits u, map (show bits) (card_ext b58 icon specs name x 0 u) = L b58 specs u.
Proof.
  intros Ha (v & d & E & V & N & P). destruct (V false) as (info & V0). exists (Ext d info). refine (conj _ (conj (enc_bytes _ _ _ _ _ E) (conj N _))).
  - exists v. split; assumption.
  - intros b58 icon specs name bits u. unfold card_ext, card_ext_with. cbn [x_data]. rewrite P. cbn [Nat.mul blanks]. clear. induction (L b58 specs u) as [|s l IH]; [reflexivity|].
    cbn [map]. rewrite IH. reflexivity.
Qed.

(** Any list of such events in the storage is accepted, and shown event by event. *)
Theorem c81_events : forall blake2_128 twox_64 types event_ty vt docs key l,
  acyclic types -> events_type types event_ty vt -> is_bytes key -> List.length key = 32%nat ->
  (N.of_nat (List.length l) < 2 ^ 32)%N -> Forall (happening_known types event_ty) l ->
  exists x,
    storage_entry blake2_128 twox_64 types key (events_bytes l) (EntryMeta (EPlain vt) docs) = Ok (Storage KPlain x (docs_text docs)) /\
    forall b58 icon specs name bits,
      map (show bits) (card_ext b58 icon specs name x 0 true) = events_lines b58 specs l.
Proof.
  intros b2 t64 types event_ty vt docs key l Ha Ht Bk Hk Hn Hl.
  destruct (can_show_whole types vt _ _ Ha (show_events types event_ty vt l Ht Hn Hl)) as (x & M & B & _ & L). exists x. split.
  - apply (PropStorage.c29_parsed b2 t64 types Ha _ _ (EntryMeta (EPlain vt) docs)); [exact Bk|].
    apply EM_plain; assumption.
  - intros b58 icon specs name bits. apply L.
Qed.
Print Assumptions c81_events.

(** Conversely: whatever is shown like that are these events, byte by byte. *)
Theorem c81_only_events : forall blake2_128 twox_64 types event_ty vt docs l,
  acyclic types -> told_apart types -> events_type types event_ty vt ->
  (N.of_nat (List.length l) < 2 ^ 32)%N -> Forall (happening_known types event_ty) l ->
  forall b58 icon specs name bits key value k y d,
  base58_faithful b58 -> bits_faithful bits -> (decimals specs < 256)%N -> is_bytes key -> is_bytes value ->
  storage_entry blake2_128 twox_64 types key value (EntryMeta (EPlain vt) docs) = Ok (Storage k y d) ->
  map (show bits) (card_ext b58 icon specs name y 0 true) = events_lines b58 specs l ->
  value = events_bytes l.
Proof.
  intros b2 t64 types event_ty vt docs l Ha Hap Ht Hn Hl b58 icon specs name bits key value k y d F1 F2 Hd Bk Bv H E.
  destruct (can_show_whole types vt _ _ Ha (show_events types event_ty vt l Ht Hn Hl)) as (x & M & B & N & L).
  apply (ProofStorage.storage_sound b2 t64) in H; [|exact Bk|exact Bv]. destruct H as [H _]. cbn [en_ty st_key st_value] in H.
  inversion H as [vt' x0 Hk He|]; subst. symmetry.
  apply (PropSee.c47_blob b58 icon specs name bits types _ _ vt x y 0%nat true F1 F2 Hd Hap B Bv).
  - apply ProofStorage.encodes_whole; [exact Ha|exact M].
  - apply ProofStorage.encodes_whole; [exact Ha|exact He].
  - exact N.
  - rewrite L. symmetry. exact E.
Qed.
Print Assumptions c81_only_events.

(** Two lists of events with the same lines are the same. *)
Theorem c81_lines_tell : forall types event_ty vt b58 specs l1 l2, acyclic types -> told_apart types -> events_type types event_ty vt ->
  base58_faithful b58 -> (decimals specs < 256)%N ->
  (N.of_nat (List.length l1) < 2 ^ 32)%N -> Forall (happening_known types event_ty) l1 ->
  (N.of_nat (List.length l2) < 2 ^ 32)%N -> Forall (happening_known types event_ty) l2 ->
  events_lines b58 specs l1 = events_lines b58 specs l2 -> l1 = l2.
Proof.
  intros types event_ty vt b58 specs l1 l2 Ha Hap Ht F1 Hd Hn1 Hl1 Hn2 Hl2 E.
  destruct (can_show_whole types vt _ _ Ha (show_events types event_ty vt l1 Ht Hn1 Hl1)) as (x1 & M1 & B1 & N1 & L1).
  destruct (can_show_whole types vt _ _ Ha (show_events types event_ty vt l2 Ht Hn2 Hl2)) as (x2 & M2 & B2 & N2 & L2).
  assert (F2 : bits_faithful Address.bits_text) by apply PropAddress.c67_formats.
  apply (events_told types event_ty l1 l2 Hn1 Hl1 Hn2 Hl2).
  apply (PropSee.c47_blob b58 (fun _ => []) specs "" Address.bits_text types _ _ vt x1 x2 0%nat true F1 F2 Hd Hap B1 B2).
  - apply ProofStorage.encodes_whole; [exact Ha|exact M1].
  - apply ProofStorage.encodes_whole; [exact Ha|exact M2].
  - exact N1.
  - rewrite L1, L2. exact E.
Qed.
Print Assumptions c81_lines_tell.
