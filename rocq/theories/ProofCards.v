(** Proofs of C37-C40. *)
From Coq Require Import Lia.
From Verif Require Import Base Compact Types Decode Sign Balance Cards Spec SpecBalance SpecCards ProofBase ProofUtf8
  ProofBalance.
Local Open Scope string_scope.
Local Open Scope list_scope.

(** ** Induction on parsed data *)

Definition leaf (d : pdata) : Prop :=
  match d with
  | DComposite _ | DVariant _ | DCall _ | DEvent _ | DTuple _ | DSequence _ _ | DSequenceRaw _ _ => False
  | _ => True
  end.

Section PdataInd.
Variable P : pdata -> Prop.
Notation fields_ok := (Forall (fun f : fdata pdata => P (x_data (fd_data f)))).
Hypothesis HLeaf : forall d, leaf d -> P d.
Hypothesis HComposite : forall fs, fields_ok fs -> P (DComposite fs).
Hypothesis HVariant : forall v, fields_ok (vd_fields v) -> P (DVariant v).
Hypothesis HCall : forall c, fields_ok (ps_fields c) -> P (DCall c).
Hypothesis HEvent : forall c, fields_ok (ps_fields c) -> P (DEvent c).
Hypothesis HTuple : forall l, Forall (fun x : ext pdata => P (x_data x)) l -> P (DTuple l).
Hypothesis HSequence : forall i s, P (DSequence i s).
Hypothesis HRaw : forall i l, Forall P l -> P (DSequenceRaw i l).

Fixpoint pdata_ind' (d : pdata) : P d :=
  let ext' x := match x as x return P (x_data x) with Ext d _ => pdata_ind' d end in
  let go := fix go (l : list (fdata pdata)) : fields_ok l :=
    match l with
    | [] => Forall_nil _
    | f :: r => Forall_cons f
        (match f as f return P (x_data (fd_data f)) with
         | FData _ _ _ x => match x as x return P (x_data x) with Ext d _ => pdata_ind' d end
         end) (go r)
    end in
  match d with
  | DComposite fs => HComposite fs (go fs)
  | DVariant v =>
      match v as v return P (DVariant v) with VData a b l => HVariant (VData a b l) (go l) end
  | DCall c =>
      match c as c return P (DCall c) with PSData a b e f l => HCall (PSData a b e f l) (go l) end
  | DEvent c =>
      match c as c return P (DEvent c) with PSData a b e f l => HEvent (PSData a b e f l) (go l) end
  | DTuple l =>
      HTuple l
        ((fix go (l : list (ext pdata)) : Forall (fun x => P (x_data x)) l :=
            match l with
            | [] => Forall_nil _
            | x :: r => Forall_cons x
                (match x as x return P (x_data x) with Ext d _ => pdata_ind' d end) (go r)
            end) l)
  | DSequence i s => HSequence i s
  | DSequenceRaw i l =>
      HRaw i l
        ((fix go (l : list pdata) : Forall P l :=
            match l with
            | [] => Forall_nil _
            | x :: r => Forall_cons x (pdata_ind' x) (go r)
            end) l)
  | d => HLeaf d I
  end.
End PdataInd.

(** ** Printed numbers and bytes *)

Lemma dec_decimal n : decimal (dec_string n) n.
Proof.
  unfold decimal. split; [|split; [apply dec_digits|split; [apply dec_value|] ] ].
  - destruct (dec_head n) as [(_ & ->)|(_ & _ & H)]; [discriminate|exact H].
  - destruct (dec_head n) as [(_ & ->)|(_ & H & _)]; [reflexivity|]. intros G. exfalso. apply H.
    unfold leading_zero. destruct (dec_string n) as [|c r]; [discriminate G|]. cbn in G. injection G as ->. eauto.
Qed.

Lemma hex_digit_value n : (n < 16)%N -> hex_value (hex_digit n) = Some n.
Proof.
  intros H. assert (G : In n (map N.of_nat (seq 0 16))).
  { apply in_map_iff. exists (N.to_nat n). split; [lia|]. apply in_seq. lia. }
  vm_compute in G. repeat (destruct G as [<-|G]; [reflexivity|]). contradiction G.
Qed.

Lemma unhex_hex l : is_bytes l -> unhex (hex_encode l) = Some l.
Proof.
  induction 1 as [|b r Hb Hr IH]; [reflexivity|]. cbn [hex_encode unhex].
  assert (b < 256)%N by exact Hb.
  rewrite !hex_digit_value, IH; [|apply N.mod_lt; lia|apply N.div_lt_upper_bound; lia].
  f_equal. f_equal. pose proof (N.div_mod b 16). lia.
Qed.

Lemma text_of_spec l : text_if_possible l (text_of l).
Proof.
  unfold text_if_possible, text_of. destruct (utf8_valid l) eqn:E.
  - left. split; [reflexivity|]. apply utf8_valid_spec. exact E.
  - right. split; [reflexivity|]. intros cs Hc El. assert (utf8_valid l = true); [|congruence].
    apply utf8_valid_spec. eauto.
Qed.

(** ** Cards as trees *)

Inductive tree := Node (c : pcard) (i : list info_flat) (sub : list tree).

Fixpoint lay (n : nat) (t : tree) : list ecard :=
  match t with
  | Node c i sub =>
      ECard c n i :: (fix go (l : list tree) : list ecard :=
                        match l with [] => [] | t :: r => lay (S n) t ++ go r end) sub
  end.
Fixpoint lays (n : nat) (l : list tree) : list ecard :=
  match l with [] => [] | t :: r => lay n t ++ lays n r end.

Lemma lay_node n c i sub : lay n (Node c i sub) = ECard c n i :: lays (S n) sub.
Proof. cbn [lay]. f_equal. induction sub as [|t r IH]; cbn [lays]; [reflexivity|]. f_equal. exact IH. Qed.

Lemma lays_app n a b : lays n (a ++ b) = lays n a ++ lays n b.
Proof. induction a as [|t a IH]; cbn [lays app]; [reflexivity|]. rewrite IH, app_assoc. reflexivity. Qed.

Section TreeInd.
Variable P : tree -> Prop.
Hypothesis HNode : forall c i sub, Forall P sub -> P (Node c i sub).
Fixpoint tree_ind' (t : tree) : P t :=
  match t with
  | Node c i sub =>
      HNode c i sub ((fix go (l : list tree) : Forall P l :=
        match l with [] => Forall_nil _ | t :: r => Forall_cons t (tree_ind' t) (go r) end) sub)
  end.
End TreeInd.

Definition root (t : tree) : pcard := match t with Node c _ _ => c end.
Definition sub_of (t : tree) : list tree := match t with Node _ _ s => s end.

Section Trees.
Variable base58 : fixed_kind -> bytes -> N -> string.
Variable identicon : bytes -> bytes.
Variable specs : short_specs.
Variable chain_name : string.

Notation card := (card base58 identicon specs chain_name).
Notation specialty_card := (specialty_card specs chain_name).
Notation fixed_card := (fixed_card base58 identicon specs).

Definition value_of (d : pdata) (db : bool) : pcard :=
  match d with
  | DBitVec w o bits => PcBitVec w o bits
  | DHash s h => PcHash s h
  | DFixed k b => fixed_card k b
  | DPer k n => PcPer k n
  | DBool b => PcBool b
  | DChar c => PcChar c
  | DUInt w value s => specialty_card w value s db
  | DU256 n => PcU256 n
  | DInt w z => PcInt w z
  | DI256 z => PcI256 z
  | DText t SsNone => PcText (string_of_bytes t)
  | DText t SsSpecName => PcSpecName (string_of_bytes t)
  | DEra e => PcEra e
  | _ => PcEmptyEnum
  end.

Definition header (k : nat) (f : fdata pdata) : pcard :=
  match fd_name f with Some a => PcFieldName a | None => PcFieldNumber (k + 1) end.

Definition single_info (inf : list info_flat) (f : fdata pdata) : list info_flat :=
  (if str_is_empty (fd_docs f) then inf else inf ++ [InfoFlat (Some (fd_docs f)) None])
  ++ map flatten (x_info (fd_data f)).

Section Nested.
Variable trees : pdata -> list info_flat -> bool -> list tree.
Fixpoint field_trees (k : nat) (fs : list (fdata pdata)) (db : bool) : list tree :=
  match fs with
  | [] => []
  | f :: r =>
      Node (header k f) (info_with_docs_only (fd_docs f))
           (trees (x_data (fd_data f)) (map flatten (x_info (fd_data f))) db)
      :: field_trees (k + 1) r db
  end.
Definition variant_trees (fs : list (fdata pdata)) (db : bool) : list tree :=
  match fs with
  | [f] => match fd_name f with
           | None => trees (x_data (fd_data f)) (single_info [] f) db
           | Some _ => field_trees 0 fs db
           end
  | _ => field_trees 0 fs db
  end.
Fixpoint tuple_trees (l : list (ext pdata)) (db : bool) : list tree :=
  match l with [] => [] | x :: r => trees (x_data x) (map flatten (x_info x)) db ++ tuple_trees r db end.
Fixpoint element_trees (l : list pdata) (db : bool) : list tree :=
  match l with [] => [] | x :: r => trees x [] db ++ element_trees r db end.
Definition pallet_tree (p : psdata pdata) (item : pitem) : tree :=
  Node (PcPalletName (ps_pallet_name p)) [flatten (ps_info p)]
    [Node (match item with ItCall => PcCallName (ps_variant_name p) | ItEvent => PcEventName (ps_variant_name p) end)
       (info_with_docs_only (ps_variant_docs p)) (variant_trees (ps_fields p) (is_balance_display p))].
End Nested.

Definition sequence_tree (s : sequence) (ei : list info) (inf : list info_flat) : tree :=
  let e := map flatten ei in
  match s with
  | SeqU U8 l => Node (seq_u8_card l e) inf []
  | SeqU w l => Node (PcSequenceAnnounced (List.length l) e) inf (map (fun x => Node (PcUInt w x) [] []) l)
  | SeqVecU8 l inner =>
      Node (PcSequenceAnnounced (List.length l) e) inf
           (map (fun x => Node (seq_u8_card x (map flatten inner)) [] []) l)
  end.

Fixpoint trees (d : pdata) (inf : list info_flat) (db : bool) {struct d} : list tree :=
  match d with
  | DComposite fs =>
      match fs with
      | [] => []
      | [f] =>
          match fd_name f with
          | None => trees (x_data (fd_data f)) (single_info inf f) db
          | Some _ => [Node (PcCompositeAnnounced 1) inf (field_trees trees 0 fs db)]
          end
      | _ => [Node (PcCompositeAnnounced (List.length fs)) inf (field_trees trees 0 fs db)]
      end
  | DVariant v =>
      [Node PcEnumAnnounced inf
        [Node (PcEnumVariantName (vd_name v)) (info_with_docs_only (vd_docs v)) (variant_trees trees (vd_fields v) db)]]
  | DCall c => [pallet_tree trees c ItCall]
  | DEvent c => [pallet_tree trees c ItEvent]
  | DTuple l =>
      match l with
      | [] => []
      | _ => [Node (PcTupleAnnounced (List.length l)) inf (tuple_trees trees l db)]
      end
  | DSequence ei s => [sequence_tree s ei inf]
  | DSequenceRaw ei l =>
      [Node (PcSequenceAnnounced (List.length l) (map flatten ei)) inf (element_trees trees l db)]
  | d => [Node (value_of d db) inf []]
  end.

Definition laid (d : pdata) : Prop := forall inf n db, card d inf n db = lays n (trees d inf db).

Lemma laid_field_set fs : Forall (fun f => laid (x_data (fd_data f))) fs -> forall k n db,
  card_field_set card k fs n db = lays n (field_trees trees k fs db).
Proof.
  induction 1 as [|f r Hf Hr IH]; intros k n db; [reflexivity|].
  cbn [card_field_set field_trees lays]. rewrite lay_node, <- app_comm_cons. unfold header at 1. f_equal.
  unfold card_ext_with. rewrite Hf, IH. replace (S n) with (n + 1)%nat by lia. reflexivity.
Qed.

Lemma laid_single f : laid (x_data (fd_data f)) -> forall inf n db,
  card_unnamed_single_field card inf f n db = lays n (trees (x_data (fd_data f)) (single_info inf f) db).
Proof. intros H inf n db. unfold card_unnamed_single_field. rewrite H. reflexivity. Qed.

Lemma laid_variant fs : Forall (fun f => laid (x_data (fd_data f))) fs -> forall n db,
  card_variant_fields card fs n db = lays n (variant_trees trees fs db).
Proof.
  intros H n db. unfold card_variant_fields, variant_trees.
  destruct fs as [|f [|g r]]; [reflexivity| |apply laid_field_set; exact H].
  destruct (fd_name f); [apply laid_field_set; exact H|]. apply laid_single. inversion H. assumption.
Qed.

Lemma laid_pallet c item : Forall (fun f => laid (x_data (fd_data f))) (ps_fields c) -> forall n,
  card_pallet_specific card c n item = lays n [pallet_tree trees c item].
Proof.
  intros H n. unfold card_pallet_specific, pallet_tree. cbn [lays]. rewrite lay_node. cbn [lays].
  rewrite lay_node, !app_nil_r. rewrite (laid_variant _ H).
  replace (n + 1)%nat with (S n) by lia. replace (n + 2)%nat with (S (S n)) by lia. reflexivity.
Qed.

Lemma lays_leaves {A} n (f : A -> pcard) l :
  lays n (map (fun x => Node (f x) [] []) l) = map (fun x => ECard (f x) n []) l.
Proof. induction l as [|x l IH]; [reflexivity|]. cbn [map lays]. rewrite IH. reflexivity. Qed.

Lemma laid_all d : laid d.
Proof.
  induction d as [d L|fs H|v H|c H|c H|l H|i s|i l H] using pdata_ind'; intros inf n db.
  - destruct d; try contradiction L; try reflexivity. destruct specialty; reflexivity.
  - cbn [Cards.card trees]. destruct fs as [|f [|g r]]; [reflexivity| |].
    + destruct (fd_name f).
      * cbn [lays]. rewrite lay_node, app_nil_r. rewrite (laid_field_set _ H).
        replace (n + 1)%nat with (S n) by lia. reflexivity.
      * apply laid_single. inversion H. assumption.
    + cbn [lays]. rewrite lay_node, app_nil_r. rewrite (laid_field_set _ H).
      replace (n + 1)%nat with (S n) by lia. reflexivity.
  - cbn [Cards.card trees lays]. rewrite lay_node. cbn [lays]. rewrite lay_node, !app_nil_r.
    rewrite (laid_variant _ H). replace (n + 1)%nat with (S n) by lia.
    replace (n + 2)%nat with (S (S n)) by lia. reflexivity.
  - apply (laid_pallet c ItCall H).
  - apply (laid_pallet c ItEvent H).
  - cbn [Cards.card trees]. destruct l as [|x r]; [reflexivity|]. cbn [lays].
    rewrite lay_node, app_nil_r. f_equal. replace (n + 1)%nat with (S n) by lia.
    generalize dependent (x :: r). clear x r. intros l H.
    induction H as [|x r Hx Hr IH]; [reflexivity|]. cbn [card_tuple tuple_trees]. rewrite lays_app.
    unfold card_ext_with. rewrite Hx, IH. reflexivity.
  - cbn [Cards.card trees lays]. rewrite app_nil_r. unfold card_sequence, sequence_tree.
    replace (n + 1)%nat with (S n) by lia.
    destruct s as [[] l|l inner]; rewrite lay_node; rewrite ?lays_leaves; reflexivity.
  - cbn [Cards.card trees lays]. rewrite lay_node, app_nil_r. f_equal.
    replace (n + 1)%nat with (S n) by lia.
    induction H as [|x r Hx Hr IH]; [reflexivity|]. cbn [card_elements element_trees]. rewrite lays_app.
    rewrite Hx, IH. reflexivity.
Qed.

Lemma one_tree d : forall inf db, (List.length (trees d inf db) <= 1)%nat.
Proof.
  induction d as [d L|fs H|v H|c H|c H|l H|i s|i l H] using pdata_ind'; intros inf db.
  - destruct d; try contradiction L; cbn; lia.
  - cbn [trees]. destruct fs as [|f [|g r]]; [cbn; lia| |cbn; lia].
    destruct (fd_name f); [cbn; lia|]. inversion H. auto.
  - cbn; lia.
  - cbn; lia.
  - cbn; lia.
  - cbn [trees]. destruct l; cbn; lia.
  - cbn; lia.
  - cbn; lia.
Qed.

(** ** C37 *)

Lemma lay_deep t : forall n, Forall (fun c => (n <= ec_indent c)%nat) (lay n t).
Proof.
  induction t as [c i sub H] using tree_ind'. intros n. rewrite lay_node. constructor; [cbn; lia|].
  induction H as [|t r Ht Hr IH]; [constructor|]. cbn [lays]. apply Forall_app. split; [|exact IH].
  eapply Forall_impl; [|apply Ht]. cbn. lia.
Qed.

Lemma lays_deep ts n : Forall (fun c => (n <= ec_indent c)%nat) (lays n ts).
Proof.
  induction ts as [|t r IH]; [constructor|]. cbn [lays]. apply Forall_app. split; [apply lay_deep|exact IH].
Qed.

Fixpoint climb (p : nat) (l : list ecard) : Prop :=
  match l with [] => True | c :: r => (ec_indent c <= p)%nat /\ climb (S (ec_indent c)) r end.

Lemma lay_climb t : forall n p rest, (n <= p)%nat -> (forall q, (n <= q)%nat -> climb q rest) ->
  climb p (lay n t ++ rest).
Proof.
  induction t as [c i sub H] using tree_ind'. intros n p rest Hp Hr. rewrite lay_node, <- app_comm_cons.
  cbn [climb ec_indent]. split; [exact Hp|].
  assert (G : forall q, (S n <= q)%nat -> climb q (lays (S n) sub ++ rest)).
  { induction H as [|t r Ht Hs IH]; intros q Hq; cbn [lays app]; [apply Hr; lia|].
    rewrite <- app_assoc. apply Ht; [exact Hq|exact IH]. }
  apply G. lia.
Qed.

Lemma lays_climb ts n : forall p, (n <= p)%nat -> climb p (lays n ts).
Proof.
  induction ts as [|t r IH]; intros p Hp; cbn [lays]; [exact I|]. apply lay_climb; [exact Hp|exact IH].
Qed.

Lemma climb_split l : forall p, climb p l -> forall pre a b post, l = pre ++ a :: b :: post ->
  (ec_indent b <= S (ec_indent a))%nat.
Proof.
  induction l as [|c r IH]; intros p H pre a b post E; [destruct pre; discriminate E|].
  destruct pre as [|x pre].
  - injection E as -> ->. cbn [climb] in H. tauto.
  - injection E as -> ->. cbn [climb] in H. eapply IH; [apply H|reflexivity].
Qed.

Lemma cards_block d inf n db : block n (card d inf n db).
Proof.
  rewrite laid_all. split.
  - pose proof (one_tree d inf db) as L. destruct (trees d inf db) as [|[c i sub] [|t r]]; [exact I| |cbn in L; lia].
    cbn [lays]. rewrite lay_node, app_nil_r. split; [reflexivity|apply lays_deep].
  - apply (climb_split _ n). apply lays_climb. lia.
Qed.

Lemma lay_shift k t : forall n, lay (k + n) t = map (shift k) (lay n t).
Proof.
  induction t as [c i sub H] using tree_ind'. intros n. rewrite !lay_node. cbn [map]. f_equal.
  induction H as [|t r Ht Hr IH]; [reflexivity|]. cbn [lays]. rewrite map_app, IH.
  replace (S (k + n)) with (k + S n)%nat by lia. rewrite Ht. reflexivity.
Qed.

Lemma cards_shift d inf n db k : card d inf (k + n) db = map (shift k) (card d inf n db).
Proof.
  rewrite !laid_all. induction (trees d inf db) as [|t r IH]; [reflexivity|]. cbn [lays].
  rewrite map_app, IH, lay_shift. reflexivity.
Qed.

(** ** C39: announced numbers *)

Lemma below_deeper i t rest : forall m, (S i < m)%nat -> below i (lay m t ++ rest) = below i rest.
Proof.
  intros m Hm. pose proof (lay_deep t m) as D. induction D as [|c r Hc Hr IH]; [reflexivity|].
  cbn [app below]. destruct (Nat.leb_spec (ec_indent c) i); [lia|]. destruct (Nat.eqb_spec (ec_indent c) (S i)); [lia|].
  exact IH.
Qed.

Lemma below_deepers i ts rest : forall m, (S i < m)%nat -> below i (lays m ts ++ rest) = below i rest.
Proof.
  intros m Hm. induction ts as [|t r IH]; [reflexivity|]. cbn [lays]. rewrite <- app_assoc, below_deeper; auto.
Qed.

Lemma below_lays i ts rest : below i (lays (S i) ts ++ rest) = map root ts ++ below i rest.
Proof.
  induction ts as [|[c j sub] r IH]; [reflexivity|]. cbn [lays map root]. rewrite <- app_assoc, lay_node.
  rewrite <- !app_comm_cons. cbn [below ec_indent ec_card].
  destruct (Nat.leb_spec (S i) i); [lia|]. rewrite Nat.eqb_refl. f_equal. rewrite below_deepers by lia. exact IH.
Qed.

Inductive tallied (full : bool) : tree -> Prop :=
| Tallied c i sub : tallies full c (map root sub) -> Forall (tallied full) sub -> tallied full (Node c i sub).

Definition tally_at (full : bool) (l rest : list ecard) : Prop :=
  forall pre c post, l = pre ++ c :: post ->
  tallies full (ec_card c) (below (ec_indent c) (post ++ rest)).

Lemma tally_app full a b rest : tally_at full a (b ++ rest) -> tally_at full b rest -> tally_at full (a ++ b) rest.
Proof.
  intros Ha Hb pre c post E. revert pre E.
  induction a as [|x a IH]; intros pre E; [apply (Hb pre); exact E|].
  destruct pre as [|y pre].
  - injection E as -> <-. rewrite <- app_assoc. apply (Ha [] c a). reflexivity.
  - injection E as -> E. apply (IH ) with (pre := pre); [|exact E].
    intros pre' c' post' E'. apply (Ha (y :: pre') c' post'). rewrite E'. reflexivity.
Qed.

Lemma tally_lay full t : forall n rest, tallied full t -> (forall m, (n <= m)%nat -> below m rest = []) ->
  tally_at full (lay n t) rest.
Proof.
  induction t as [c i sub H] using tree_ind'. intros n rest T L. inversion T as [c' i' sub' Tc Ts]; subst.
  rewrite lay_node. change (ECard c n i :: lays (S n) sub) with ([ECard c n i] ++ lays (S n) sub).
  apply tally_app.
  - intros pre d post E. destruct pre as [|x [|y pre]]; try discriminate E. injection E as <- <-.
    cbn [app ec_card ec_indent]. rewrite below_lays, L, app_nil_r by lia. exact Tc.
  - assert (G : tally_at full (lays (S n) sub) rest /\ forall m, (S n <= m)%nat -> below m (lays (S n) sub ++ rest) = []).
    { clear T Tc. induction H as [|t r Ht Hr IH]; cbn [lays].
      - split; [intros [|x pre] d post E; discriminate E|]. intros m Hm. apply L. lia.
      - inversion Ts as [|t' r' Tt Tr]; subst. destruct (IH Tr) as [IH1 IH2]. split.
        + apply tally_app; [|exact IH1]. apply Ht; [exact Tt|exact IH2].
        + intros m Hm. destruct t as [c' i' sub']. rewrite lay_node, <- app_assoc, <- app_comm_cons.
          cbn [below ec_indent]. destruct (Nat.leb_spec (S n) m); [reflexivity|lia]. }
    apply G.
Qed.

Lemma tally_lays full ts n : Forall (tallied full) ts -> (List.length ts <= 1)%nat ->
  forall pre c post, lays n ts = pre ++ c :: post -> tallies full (ec_card c) (below (ec_indent c) post).
Proof.
  intros T L pre c post E. destruct ts as [|t [|? ?]]; [destruct pre; discriminate E| |cbn in L; lia].
  inversion T; subst. cbn [lays] in E. rewrite app_nil_r in E.
  rewrite <- (app_nil_r post). apply (tally_lay full t n []) with (pre := pre); [assumption| |exact E].
  intros; reflexivity.
Qed.

Lemma everywhere_composite P fs : everywhere P (DComposite fs) <->
  P (DComposite fs) /\ Forall (fun f => everywhere P (x_data (fd_data f))) fs.
Proof.
  cbn [everywhere]. apply and_iff_compat_l. induction fs as [|f r IH]; split; intros H; auto.
  - constructor; [apply H|apply IH, H].
  - inversion H; subst. split; [assumption|apply IH; assumption].
Qed.
Lemma everywhere_variant P v : everywhere P (DVariant v) <->
  P (DVariant v) /\ Forall (fun f => everywhere P (x_data (fd_data f))) (vd_fields v).
Proof.
  cbn [everywhere]. apply and_iff_compat_l. induction (vd_fields v) as [|f r IH]; split; intros H; auto.
  - constructor; [apply H|apply IH, H].
  - inversion H; subst. split; [assumption|apply IH; assumption].
Qed.
Lemma everywhere_call P v : everywhere P (DCall v) <->
  P (DCall v) /\ Forall (fun f => everywhere P (x_data (fd_data f))) (ps_fields v).
Proof.
  cbn [everywhere]. apply and_iff_compat_l. induction (ps_fields v) as [|f r IH]; split; intros H; auto.
  - constructor; [apply H|apply IH, H].
  - inversion H; subst. split; [assumption|apply IH; assumption].
Qed.
Lemma everywhere_event P v : everywhere P (DEvent v) <->
  P (DEvent v) /\ Forall (fun f => everywhere P (x_data (fd_data f))) (ps_fields v).
Proof.
  cbn [everywhere]. apply and_iff_compat_l. induction (ps_fields v) as [|f r IH]; split; intros H; auto.
  - constructor; [apply H|apply IH, H].
  - inversion H; subst. split; [assumption|apply IH; assumption].
Qed.
Lemma everywhere_tuple P l : everywhere P (DTuple l) <->
  P (DTuple l) /\ Forall (fun x => everywhere P (x_data x)) l.
Proof.
  cbn [everywhere]. apply and_iff_compat_l. induction l as [|f r IH]; split; intros H; auto.
  - constructor; [apply H|apply IH, H].
  - inversion H; subst. split; [assumption|apply IH; assumption].
Qed.
Lemma everywhere_raw P i l : everywhere P (DSequenceRaw i l) <->
  P (DSequenceRaw i l) /\ Forall (everywhere P) l.
Proof.
  cbn [everywhere]. apply and_iff_compat_l. induction l as [|f r IH]; split; intros H; auto.
  - constructor; [apply H|apply IH, H].
  - inversion H; subst. split; [assumption|apply IH; assumption].
Qed.
Lemma everywhere_here P d : everywhere P d -> P d.
Proof. destruct d; intros H; apply H. Qed.

Lemma not_hollow d : hollow d = false -> forall inf db, List.length (trees d inf db) = 1%nat.
Proof.
  induction d as [d L|fs H|v H|c H|c H|l H|i s|i l H] using pdata_ind'; intros N inf db; try reflexivity.
  - destruct d; try contradiction L; reflexivity.
  - cbn [hollow trees] in *. destruct fs as [|f [|g r]]; [discriminate N| |reflexivity].
    destruct (fd_name f); [reflexivity|]. inversion H; subst. auto.
  - destruct l; [discriminate N|reflexivity].
Qed.

Definition solid (full : bool) (d : pdata) : Prop := full = true -> everywhere (fun x => hollow x = false) d.

Lemma solid_one full d : solid full d -> full = true -> forall inf db, List.length (trees d inf db) = 1%nat.
Proof. intros S F. apply not_hollow. apply (everywhere_here (fun x => hollow x = false)). auto. Qed.

Definition tally_ok (full : bool) (d : pdata) : Prop :=
  solid full d -> forall inf db, Forall (tallied full) (trees d inf db).

Lemma field_trees_length fs : forall k db, List.length (field_trees trees k fs db) = List.length fs.
Proof. induction fs as [|f r IH]; intros k db; [reflexivity|]. cbn. rewrite IH. reflexivity. Qed.

Lemma field_trees_headers fs : forall k db j c, nth_error (map root (field_trees trees k fs db)) j = Some c ->
  field_header (S (k + j)) c.
Proof.
  induction fs as [|f r IH]; intros k db j c E; [destruct j; discriminate E|].
  cbn [field_trees map root] in E. destruct j as [|j].
  - cbn in E. injection E as <-. unfold field_header, header. destruct (fd_name f) as [a|]; [left; eauto|right].
    f_equal. lia.
  - cbn in E. apply IH in E. replace (S (k + S j)) with (S (k + 1 + j)) by lia. exact E.
Qed.

Lemma tally_fields full fs : Forall (fun f => tally_ok full (x_data (fd_data f))) fs ->
  Forall (fun f => solid full (x_data (fd_data f))) fs -> forall k db,
  Forall (tallied full) (field_trees trees k fs db).
Proof.
  induction 1 as [|f r Hf Hr IH]; intros S k db; [constructor|]. inversion S as [|f' r' Sf Sr]; subst.
  cbn [field_trees]. constructor; [|apply IH; exact Sr]. constructor; [|apply Hf; exact Sf].
  unfold header. pose proof (one_tree (x_data (fd_data f)) (map flatten (x_info (fd_data f))) db) as L.
  pose proof (fun F => solid_one full _ Sf F (map flatten (x_info (fd_data f))) db) as L'.
  destruct (fd_name f); cbn [tallies]; rewrite map_length; split; auto.
Qed.

Lemma tally_variant full c fs i : (exists n, c = PcEnumVariantName n \/ c = PcCallName n \/ c = PcEventName n) ->
  Forall (fun f => tally_ok full (x_data (fd_data f))) fs ->
  Forall (fun f => solid full (x_data (fd_data f))) fs -> forall db,
  tallied full (Node c i (variant_trees trees fs db)).
Proof.
  intros C H S db. assert (G : forall l, (field_headers l \/ (List.length l <= 1)%nat) -> tallies full c l).
  { destruct C as (n & [-> |[-> | ->] ]); auto. }
  assert (F : tallied full (Node c i (field_trees trees 0 fs db))).
  { constructor; [apply G; left; intros k x; apply (field_trees_headers fs 0)|apply tally_fields; assumption]. }
  unfold variant_trees. destruct fs as [|f [|g r]]; try exact F. destruct (fd_name f); [exact F|].
  inversion H; inversion S; subst. constructor; [apply G; right; rewrite map_length; apply one_tree|auto].
Qed.

Lemma tally_all full d : tally_ok full d.
Proof.
  induction d as [d L|fs H|v H|c H|c H|l H|i s|i l H] using pdata_ind'; intros S inf db.
  - destruct d; try contradiction L; (constructor; [|constructor]); (constructor; [|constructor]); cbn [value_of map].
    all: try reflexivity.
    + destruct k; reflexivity.
    + destruct specialty, db; reflexivity.
    + destruct specialty; reflexivity.
  - assert (S' : Forall (fun f => solid full (x_data (fd_data f))) fs).
    { apply Forall_forall. intros f Hf F. apply S in F. apply everywhere_composite in F.
      destruct F as [_ F]. rewrite Forall_forall in F. auto. }
    assert (G : tallied full (Node (PcCompositeAnnounced (List.length fs)) inf (field_trees trees 0 fs db))).
    { constructor; [|apply tally_fields; assumption]. split; [rewrite map_length; apply field_trees_length|].
      intros k x; apply (field_trees_headers fs 0). }
    cbn [trees]. destruct fs as [|f [|g r]]; [apply Forall_nil| |constructor; [exact G|constructor] ].
    destruct (fd_name f); [constructor; [exact G|constructor]|]. inversion H; inversion S'; subst. auto.
  - assert (S' : Forall (fun f => solid full (x_data (fd_data f))) (vd_fields v)).
    { apply Forall_forall. intros f Hf F. apply S in F. apply everywhere_variant in F.
      destruct F as [_ F]. rewrite Forall_forall in F. auto. }
    cbn [trees]. constructor; [|constructor]. constructor; [eexists; reflexivity|].
    constructor; [|constructor]. apply tally_variant; eauto.
  - assert (S' : Forall (fun f => solid full (x_data (fd_data f))) (ps_fields c)).
    { apply Forall_forall. intros f Hf F. apply S in F. apply everywhere_call in F.
      destruct F as [_ F]. rewrite Forall_forall in F. auto. }
    cbn [trees]. constructor; [|constructor]. constructor; [eexists; left; reflexivity|].
    constructor; [|constructor]. apply tally_variant; eauto.
  - assert (S' : Forall (fun f => solid full (x_data (fd_data f))) (ps_fields c)).
    { apply Forall_forall. intros f Hf F. apply S in F. apply everywhere_event in F.
      destruct F as [_ F]. rewrite Forall_forall in F. auto. }
    cbn [trees]. constructor; [|constructor]. constructor; [eexists; right; reflexivity|].
    constructor; [|constructor]. apply tally_variant; eauto.
  - assert (S' : Forall (fun x => solid full (x_data x)) l).
    { apply Forall_forall. intros f Hf F. apply S in F. apply everywhere_tuple in F.
      destruct F as [_ F]. rewrite Forall_forall in F. auto. }
    cbn [trees]. destruct l as [|x r]; [constructor|]. constructor; [|constructor].
    generalize dependent (x :: r). clear x r. intros l H _ S. constructor.
    + cbn [tallies]. rewrite map_length. clear H. induction S as [|x r Sx Sr IH]; [auto|].
      cbn [tuple_trees List.length]. rewrite app_length. destruct IH as [IH1 IH2].
      pose proof (one_tree (x_data x) (map flatten (x_info x)) db) as L.
      pose proof (fun F => solid_one full _ Sx F (map flatten (x_info x)) db) as L'.
      split; [lia|]. intros F. rewrite IH2, L' by exact F. reflexivity.
    + induction H as [|x r Hx Hr IH]; [constructor|]. inversion S; subst. cbn [tuple_trees].
      apply Forall_app. split; auto.
  - cbn [trees]. constructor; [|constructor]. unfold sequence_tree.
    assert (G : forall (A : Type) (f : A -> tree) (l : list A) e, (forall x, tallied full (f x)) ->
       tallied full (Node (PcSequenceAnnounced (List.length l) e) inf (map f l))).
    { intros A f l e Hf. constructor; [cbn [tallies]; rewrite !map_length; auto|].
      apply Forall_forall. intros t Ht. apply in_map_iff in Ht. destruct Ht as (x & <- & _). apply Hf. }
    assert (T : forall c, tallies full c [] -> forall j, tallied full (Node c j [])).
    { intros c Hc j. constructor; [exact Hc|constructor]. }
    destruct s as [[] l|l inner]; try (apply T; reflexivity); apply G; intros; apply T; reflexivity.
  - assert (S' : Forall (solid full) l).
    { apply Forall_forall. intros f Hf F. apply S in F. apply everywhere_raw in F.
      destruct F as [_ F]. rewrite Forall_forall in F. auto. }
    cbn [trees]. constructor; [|constructor]. clear S. constructor.
    + cbn [tallies]. rewrite map_length. clear H. induction S' as [|x r Sx Sr IH]; [auto|].
      cbn [element_trees List.length]. rewrite app_length. destruct IH as [IH1 IH2].
      pose proof (one_tree x [] db) as L.
      pose proof (fun F => solid_one full _ Sx F [] db) as L'.
      split; [lia|]. intros F. rewrite IH2, L' by exact F. reflexivity.
    + induction H as [|x r Hx Hr IH]; [constructor|]. inversion S'; subst. cbn [element_trees].
      apply Forall_app. split; auto.
Qed.

Lemma cards_tally full d inf n db : (full = true -> everywhere (fun x => hollow x = false) d) ->
  forall pre c post, card d inf n db = pre ++ c :: post ->
  tallies full (ec_card c) (below (ec_indent c) post).
Proof.
  intros S pre c post E. rewrite laid_all in E. eapply tally_lays; [|apply one_tree|exact E].
  apply tally_all. exact S.
Qed.

(** ** C38, C39: contents *)

Definition said (l : list ecard) : list pcard := filter (fun c => negb (structural c)) (map ec_card l).

Lemma said_app a b : said (a ++ b) = said a ++ said b.
Proof. unfold said. rewrite map_app, filter_app. reflexivity. Qed.

Lemma said_node n c i sub r : said (lays n (Node c i sub :: r)) =
  (if structural c then [] else [c]) ++ said (lays (S n) sub) ++ said (lays n r).
Proof.
  cbn [lays]. rewrite lay_node, said_app. change (ECard c n i :: lays (S n) sub) with ([ECard c n i] ++ lays (S n) sub).
  rewrite said_app, <- app_assoc. f_equal. unfold said. cbn. destruct (structural c); reflexivity.
Qed.

Lemma units_ok v : in_units specs v (convert_balance_pretty v (decimals specs) (unit_name specs)).
Proof.
  intros Hv Hd. destruct (balance_shown v (decimals specs) (unit_name specs) Hv Hd)
    as (n' & p' & i' & f' & e' & b & a & Hc' & Hdis' & Hin' & Ham & _).
  exists n', p', i', f', e'. auto.
Qed.

Notation shows := (shows base58 identicon specs chain_name).
Definition showing (l : list (bool * item)) (m : list pcard) : Prop := Forall2 (fun x c => shows (fst x) (snd x) c) l m.

Definition content_ok (d : pdata) : Prop := forall inf n db, showing (contents db d) (said (lays n (trees d inf db))).

Lemma showing_app a b m n : showing a m -> showing b n -> showing (a ++ b) (m ++ n).
Proof. apply Forall2_app. Qed.

Lemma content_fields fs : Forall (fun f => content_ok (x_data (fd_data f))) fs -> forall k n db,
  showing (flat_map (fun f => contents db (x_data (fd_data f))) fs) (said (lays n (field_trees trees k fs db))).
Proof.
  induction 1 as [|f r Hf Hr IH]; intros k n db; [constructor|]. cbn [flat_map field_trees]. rewrite said_node.
  replace (structural (header k f)) with true by (unfold header; destruct (fd_name f); reflexivity). cbn [app].
  apply showing_app; auto.
Qed.

Lemma content_variant fs : Forall (fun f => content_ok (x_data (fd_data f))) fs -> forall n db,
  showing (flat_map (fun f => contents db (x_data (fd_data f))) fs) (said (lays n (variant_trees trees fs db))).
Proof.
  intros H n db. unfold variant_trees. destruct fs as [|f [|g r]]; try (apply content_fields; exact H).
  destruct (fd_name f); [apply content_fields; exact H|]. cbn [flat_map]. rewrite app_nil_r. inversion H; subst. auto.
Qed.

Lemma unit_pallet_spec c : is_balance_display c = unit_pallet (ps_pallet_name c).
Proof.
  unfold is_balance_display, unit_pallet, PALLETS_BALANCE_VALID. cbn [str_in existsb].
  rewrite orb_false_r. reflexivity.
Qed.

Lemma content_all d : content_ok d.
Proof.
  induction d as [d L|fs H|v H|c H|c H|l H|i s|i l H] using pdata_ind'; intros inf n db.
  - destruct d; try contradiction L; cbn [contents trees]; rewrite said_node; cbn [value_of].
    all: try (cbn; constructor; [constructor|constructor]).
    + destruct k; cbn; (constructor; [|constructor]); first [apply S_key; cbn; tauto|apply S_fixed; cbn; intuition discriminate].
    + destruct specialty, db; cbn [specialty_card structural]; constructor; try constructor; first [apply units_ok|apply dec_decimal].
    + destruct specialty; cbn; (constructor; [|constructor]); constructor.
  - cbn [contents trees]. destruct fs as [|f [|g r]]; [constructor| |].
    + destruct (fd_name f).
      * rewrite said_node. cbn [structural app lays said map filter]. rewrite app_nil_r.
        apply content_fields; exact H.
      * cbn [flat_map]. rewrite app_nil_r. inversion H; subst. auto.
    + rewrite said_node. cbn [structural app lays said map filter]. rewrite app_nil_r. apply content_fields; exact H.
  - cbn [contents trees]. rewrite !said_node. cbn [structural app lays said map filter]. rewrite !app_nil_r.
    constructor; [constructor|]. apply content_variant; exact H.
  - cbn [contents trees]. unfold pallet_tree. rewrite !said_node. cbn [structural app lays said map filter].
    rewrite !app_nil_r, unit_pallet_spec.
    constructor; [constructor|]. constructor; [constructor|]. apply content_variant; exact H.
  - cbn [contents trees]. unfold pallet_tree. rewrite !said_node. cbn [structural app lays said map filter].
    rewrite !app_nil_r, unit_pallet_spec.
    constructor; [constructor|]. constructor; [constructor|]. apply content_variant; exact H.
  - cbn [contents trees]. destruct l as [|x r]; [constructor|]. rewrite said_node.
    cbn [structural app]. change (said (lays n [])) with (@nil pcard). rewrite app_nil_r.
    generalize dependent (x :: r). clear x r. intros l H.
    induction H as [|x r Hx Hr IH]; [constructor|]. cbn [flat_map tuple_trees]. rewrite lays_app, said_app.
    apply showing_app; auto.
  - cbn [contents trees]. unfold sequence_tree.
    assert (G : forall (A : Type) (f : A -> pcard) (g : A -> item) l c j, structural c = true ->
      (forall x, structural (f x) = false) -> (forall x, shows db (g x) (f x)) ->
      showing (map (fun x => (db, g x)) l) (said (lays n [Node c j (map (fun x => Node (f x) [] []) l)]))).
    { intros A f g l c j Hc Hf Hg. rewrite said_node, Hc. change (said (lays n [])) with (@nil pcard).
      rewrite app_nil_r. cbn [app]. clear Hc. induction l as [|x l IH]; [constructor|]. cbn [map].
      rewrite said_node, Hf. change (said (lays (S (S n)) [])) with (@nil pcard). cbn [app].
      constructor; [apply Hg|exact IH]. }
    destruct s as [[] l|l inner].
    + rewrite said_node. cbn. constructor; [|constructor]. constructor; [apply unhex_hex|apply text_of_spec].
    + apply G; [reflexivity|reflexivity|intros; constructor].
    + apply G; [reflexivity|reflexivity|intros; constructor].
    + apply G; [reflexivity|reflexivity|intros; constructor].
    + apply G; [reflexivity|reflexivity|intros; constructor].
    + apply G; [reflexivity|reflexivity|]. intros. constructor; [apply unhex_hex|apply text_of_spec].
  - cbn [contents trees]. rewrite said_node. cbn [structural app]. change (said (lays n [])) with (@nil pcard).
    rewrite app_nil_r. induction H as [|x r Hx Hr IH]; [constructor|]. cbn [flat_map element_trees].
    rewrite lays_app, said_app. apply showing_app; auto.
Qed.

Lemma cards_contents d inf n db :
  Forall2 (fun x c => shows (fst x) (snd x) c) (contents db d)
    (filter (fun c => negb (structural c)) (map ec_card (card d inf n db))).
Proof. rewrite laid_all. apply content_all. Qed.

(** ** C40 *)

Definition infos_ok (l : list info) : Prop := Forall (fun i => info_is_empty i = false) l.

Definition info_here (d : pdata) : Prop :=
  match d with
  | DComposite fs => Forall (fun f => infos_ok (x_info (fd_data f))) fs
  | DVariant v => Forall (fun f => infos_ok (x_info (fd_data f))) (vd_fields v)
  | DCall c | DEvent c => info_is_empty (ps_info c) = false /\ Forall (fun f => infos_ok (x_info (fd_data f))) (ps_fields c)
  | DTuple l => Forall (fun x => infos_ok (x_info x)) l
  | DSequence ei s => infos_ok ei /\ match s with SeqVecU8 _ inner => infos_ok inner | _ => True end
  | DSequenceRaw ei _ => infos_ok ei
  | _ => True
  end.

Lemma flatten_says i : info_is_empty i = false -> says_something (flatten i).
Proof.
  unfold info_is_empty, says_something, flatten. cbn. destruct (i_docs i) as [|a s]; cbn [str_is_empty andb].
  - destruct (i_path i); [discriminate|]. split; [right|]; discriminate.
  - split; [left|]; discriminate.
Qed.

Lemma flattens_say l : infos_ok l -> Forall says_something (map flatten l).
Proof. induction 1; constructor; auto using flatten_says. Qed.

Lemma docs_only_says s : Forall says_something (info_with_docs_only s).
Proof.
  unfold info_with_docs_only. destruct s as [|a s]; cbn [str_is_empty]; [constructor|].
  constructor; [split; [left|]; discriminate|constructor].
Qed.

Definition info_ok (d : pdata) : Prop := everywhere info_here d -> forall inf n db,
  Forall says_something inf -> Forall informative (lays n (trees d inf db)).

Lemma single_info_says inf f : Forall says_something inf -> infos_ok (x_info (fd_data f)) ->
  Forall says_something (single_info inf f).
Proof.
  intros H F. unfold single_info. apply Forall_app. split; [|apply flattens_say; exact F].
  destruct (fd_docs f) as [|a s]; cbn [str_is_empty]; [exact H|]. apply Forall_app. split; [exact H|].
  constructor; [split; [left|]; discriminate|constructor].
Qed.

Lemma informs_node n c i sub r : Forall says_something i -> Forall says_something (element_infos c) ->
  Forall informative (lays (S n) sub) -> Forall informative (lays n r) -> Forall informative (lays n (Node c i sub :: r)).
Proof.
  intros. cbn [lays]. rewrite lay_node, <- app_comm_cons. constructor; [split; assumption|]. apply Forall_app. auto.
Qed.

Lemma info_fields fs : Forall (fun f => info_ok (x_data (fd_data f))) fs ->
  Forall (fun f => infos_ok (x_info (fd_data f))) fs ->
  Forall (fun f => everywhere info_here (x_data (fd_data f))) fs -> forall k n db,
  Forall informative (lays n (field_trees trees k fs db)).
Proof.
  induction 1 as [|f r Hf Hr IH]; intros I E k n db; [constructor|]. inversion I; inversion E; subst.
  cbn [field_trees]. apply informs_node; [apply docs_only_says| | |auto].
  - unfold header. destruct (fd_name f); constructor.
  - apply Hf; [assumption|]. apply flattens_say. assumption.
Qed.

Lemma info_variant fs : Forall (fun f => info_ok (x_data (fd_data f))) fs ->
  Forall (fun f => infos_ok (x_info (fd_data f))) fs ->
  Forall (fun f => everywhere info_here (x_data (fd_data f))) fs -> forall n db,
  Forall informative (lays n (variant_trees trees fs db)).
Proof.
  intros H I E n db. unfold variant_trees. destruct fs as [|f [|g r]]; try (apply info_fields; assumption).
  destruct (fd_name f); [apply info_fields; assumption|]. inversion H; inversion I; inversion E; subst.
  match goal with A : info_ok _ |- _ => apply A; [assumption|] end. apply single_info_says; [constructor|assumption].
Qed.

Lemma info_all d : info_ok d.
Proof.
  induction d as [d L|fs H|v H|c H|c H|l H|i s|i l H] using pdata_ind'; intros E inf n db I.
  - destruct d; try contradiction L; cbn [trees]; (apply informs_node; [exact I| |constructor|constructor]); cbn [value_of].
    all: try constructor.
    + destruct k; constructor.
    + destruct specialty, db; constructor.
    + destruct specialty; constructor.
  - apply everywhere_composite in E. destruct E as [Ei Ee]. cbn [info_here] in Ei. cbn [trees].
    assert (G : Forall informative (lays n [Node (PcCompositeAnnounced (List.length fs)) inf (field_trees trees 0 fs db)])).
    { apply informs_node; [exact I|constructor| |constructor]. apply info_fields; assumption. }
    destruct fs as [|f [|g r]]; [constructor| |exact G]. destruct (fd_name f); [exact G|].
    inversion H; inversion Ei; inversion Ee; subst.
    match goal with A : info_ok _ |- _ => apply A; [assumption|] end. apply single_info_says; assumption.
  - apply everywhere_variant in E. destruct E as [Ei Ee]. cbn [trees].
    apply informs_node; [exact I|constructor| |constructor].
    apply informs_node; [apply docs_only_says|constructor| |constructor]. apply info_variant; assumption.
  - apply everywhere_call in E. destruct E as [ [Ep Ei] Ee]. cbn [trees].
    apply informs_node; [|constructor| |constructor]; [constructor; [apply flatten_says; exact Ep|constructor]|].
    apply informs_node; [apply docs_only_says|constructor| |constructor]. apply info_variant; assumption.
  - apply everywhere_event in E. destruct E as [ [Ep Ei] Ee]. cbn [trees].
    apply informs_node; [|constructor| |constructor]; [constructor; [apply flatten_says; exact Ep|constructor]|].
    apply informs_node; [apply docs_only_says|constructor| |constructor]. apply info_variant; assumption.
  - apply everywhere_tuple in E. destruct E as [Ei Ee]. cbn [info_here] in Ei. cbn [trees].
    destruct l as [|x r]; [constructor|]. apply informs_node; [exact I|constructor| |constructor].
    generalize dependent (x :: r). clear x r. intros l H Ei Ee.
    induction H as [|x r Hx Hr IH]; [constructor|]. inversion Ei; inversion Ee; subst. cbn [tuple_trees].
    rewrite lays_app. apply Forall_app. split; [|auto]. apply Hx; [assumption|]. apply flattens_say. assumption.
  - destruct E as [ [Ei Es] _]. cbn [trees]. unfold sequence_tree.
    assert (G : forall (A : Type) (f : A -> pcard) l, (forall x, Forall says_something (element_infos (f x))) ->
      Forall informative (lays (S n) (map (fun x => Node (f x) [] []) l))).
    { intros A f l Hf. induction l as [|x l IH]; [constructor|]. cbn [map]. apply informs_node; auto. constructor. }
    destruct s as [[] l|l inner]; (apply informs_node; [exact I|apply flattens_say; exact Ei| |constructor]);
      first [constructor|apply G; intros; cbn; first [apply flattens_say; exact Es|constructor] ].
  - apply everywhere_raw in E. destruct E as [Ei Ee]. cbn [info_here] in Ei. cbn [trees].
    apply informs_node; [exact I|apply flattens_say; exact Ei| |constructor].
    induction H as [|x r Hx Hr IH]; [constructor|]. inversion Ee; subst. cbn [element_trees]. rewrite lays_app.
    apply Forall_app. split; [|auto]. apply Hx; [assumption|constructor].
Qed.

Lemma cards_informative d inf n db : everywhere info_here d -> Forall says_something inf ->
  Forall informative (card d inf n db).
Proof. intros E I. rewrite laid_all. apply info_all; assumption. Qed.
End Trees.
