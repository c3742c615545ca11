(** Recursion equations of the specification, wrapping and unwrapping of vector elements,
    and the recognition of special types. *)
From Coq Require Import Lia ZifyBool ZifyNat ZifyN.
From Verif Require Import Base Compact Types Indicators Decode Spec ProofBase ProofCompact
  ProofUtf8 ProofLeaf ProofRead ProofTables ProofPeel.
Local Open Scope list_scope.

Section SpecEq.
Variable types : list ty.
Local Notation enc := (enc types).
Local Notation view := (view types).
Local Notation nocyc := (nocyc types).
Local Notation lookup := (lookup types).
Local Notation variant_sig := (variant_sig types).
Local Notation pallet_items := (pallet_items types).

Definition fields_view (h : hint) (fs : list field) (vs : list value) : option (list (fdata pdata)) :=
  view_list (fun f v => option_map (field_form f)
               (view false (or_label (pass_label h (List.length fs)) (field_label f)) (f_ty f) v)) fs vs.

Definition elems_view (el : N) : list value -> option (list pdata) :=
  fix go (vs : list value) : option (list pdata) :=
    match vs with
    | [] => Some []
    | v :: vs' =>
        match view true HNone el v, go vs' with
        | Some (d, _), Some ds => Some (d :: ds)
        | _, _ => None
        end
    end.

Definition seq_view (t : ty) (el : N) (vs : list value) : option (pdata * list info) :=
  match peel_from types [] el, elems_view el vs with
  | Some (inf, _), Some ds => Some (sequence_of inf ds, own_info t)
  | _, _ => None
  end.

Definition tuple_view (h : hint) (ids : list N) (vs : list value) : option (list (ext pdata)) :=
  view_list (fun i v =>
     match lookup i with
     | Some ti =>
         option_map (fun x => Ext (fst x) (snd x))
           (view false (or_label (pass_label h (List.length ids)) (path_label ti)) i v)
     | None => None
     end) ids vs.

Lemma view_struct elem h id t fs vs : lookup id = Some t -> def_of t = Some (TComposite fs) ->
  view elem h id (VStruct vs) =
  match elem, transparent t, fs, vs with
  | true, Some _, [f], [v'] => view true (or_label h (field_label f)) (f_ty f) v'
  | _, _, _, _ =>
      match fields_view h fs vs with Some l => Some (DComposite l, own_info t) | None => None end
  end.
Proof. intros Hl Hd. cbn [Spec.view]. rewrite Hl, Hd. reflexivity. Qed.

Lemma view_tuple elem h id t ids vs : lookup id = Some t -> def_of t = Some (TTuple ids) ->
  view elem h id (VTuple vs) =
  match tuple_view h ids vs with Some l => Some (DTuple l, own_info t) | None => None end.
Proof. intros Hl Hd. cbn [Spec.view]. rewrite Hl, Hd. reflexivity. Qed.

Lemma view_enum elem h id t variants i var vs : lookup id = Some t ->
  def_of t = Some (TVariant variants) -> by_index variants i = Some var ->
  view elem h id (VEnum i vs) =
  match fields_view HNone (v_fields var) vs with
  | Some l => Some (DVariant (VData (v_name var) (docs_text (v_docs var)) l), own_info t)
  | None => None
  end.
Proof. intros Hl Hd Hi. cbn [Spec.view]. rewrite Hl, Hd, Hi. reflexivity. Qed.

Lemma view_item elem h id t variants i j var inner items item vs : lookup id = Some t ->
  def_of t = Some (TVariant variants) -> by_index variants i = Some var ->
  pallet_items t var = Some (inner, items) -> by_index items j = Some item ->
  view elem h id (VItem i j vs) =
  match fields_view HNone (v_fields item) vs with
  | Some l =>
      let d := PSData (Info (docs_text (t_docs inner)) (t_path inner))
                 (docs_text (v_docs item)) (v_name var) (v_name item) l in
      Some (match classify t with SpItem ItEvent => DEvent d | _ => DCall d end, own_info t)
  | None => None
  end.
Proof. intros Hl Hd Hi Hp Hj. cbn [Spec.view]. rewrite Hl, Hd, Hi, Hp, Hj. reflexivity. Qed.

Lemma view_seq elem h id t el vs : lookup id = Some t -> def_of t = Some (TSequence el) ->
  view elem h id (VSeq vs) = seq_view t el vs.
Proof. intros Hl Hd. cbn [Spec.view]. rewrite Hl, Hd. reflexivity. Qed.

Lemma view_arr elem h id t n el vs : lookup id = Some t -> def_of t = Some (TArray n el) ->
  view elem h id (VArr vs) = seq_view t el vs.
Proof. intros Hl Hd. cbn [Spec.view]. rewrite Hl, Hd. reflexivity. Qed.

Lemma view_compact elem h id t inner v : lookup id = Some t -> def_of t = Some (TCompact inner) ->
  view elem h id (VCompact v) =
  match view (elem && is_some (transparent t)) h inner v with
  | Some (d, l) => Some (d, own_info t ++ l)
  | None => None
  end.
Proof. intros Hl Hd. cbn [Spec.view]. rewrite Hl, Hd. reflexivity. Qed.

(** Elements are shown differently only if their type is transparent. *)
Lemma view_opaque elem h id t v : lookup id = Some t -> transparent t = None ->
  view elem h id v = view false h id v.
Proof.
  intros Hl Ht. destruct elem; [|reflexivity]. destruct v; try reflexivity.
  - cbn [Spec.view]. rewrite Hl. destruct (def_of t) as [[]|]; try reflexivity.
    rewrite Ht. reflexivity.
  - cbn [Spec.view]. rewrite Hl. destruct (def_of t) as [[]|]; try reflexivity.
    rewrite Ht. reflexivity.
Qed.

Lemma enc_lookup cpt id v bs : enc cpt id v = Some bs -> exists t, lookup id = Some t.
Proof. destruct v; cbn [Spec.enc]; destruct (lookup id); eauto; discriminate. Qed.

Lemma chain_lookup seen cpt h id l seen' cpt' h' final :
  chain types seen cpt h id l seen' cpt' h' final -> exists t, lookup id = Some t.
Proof. inversion 1; eauto. Qed.

Lemma chain_final seen cpt h id l seen' cpt' h' final :
  chain types seen cpt h id l seen' cpt' h' final ->
  exists t, lookup final = Some t /\ transparent t = None.
Proof. induction 1; eauto. Qed.

Lemma chain_fresh seen cpt h id l seen' cpt' h' final :
  chain types seen cpt h id l seen' cpt' h' final -> fresh seen id = true.
Proof. inversion 1; auto. Qed.

(** An element of the final type, as an element of the first type. *)
Lemma chain_wrap seen cpt h id l seen' cpt' h' final :
  chain types seen cpt h id l seen' cpt' h' final ->
  forall vf bs d li, enc cpt' final vf = Some bs -> view false h' final vf = Some (d, li) ->
  nocyc seen' final vf = true ->
  exists v l', enc cpt id v = Some bs /\ view true h id v = Some (d, l') /\
    nocyc (seen ++ [id]) id v = true.
Proof.
  induction 1 as [seen cpt h id t Hf Hl Ht
                 |seen cpt h id t f l seen' cpt' h' final Hf Hl Ht Hd Hc IH
                 |seen h id t inner l seen' cpt' h' final Hf Hl Ht Hd Hc IH];
    intros vf bs d li He Hv Hn.
  - exists vf, li. repeat split; auto. erewrite view_opaque; eauto.
  - destruct (IH _ _ _ _ He Hv Hn) as (v & l' & He1 & Hv1 & Hn1).
    destruct (transparent_false _ _ Ht) as (f1 & Hd1 & _ & Hdef).
    rewrite Hd in Hd1. injection Hd1 as <-.
    exists (VStruct [v]), l'. repeat split.
    + cbn [Spec.enc]. rewrite Hl, Hdef. cbn [List.length Nat.leb]. rewrite andb_false_r.
      cbn [enc_list]. rewrite He1, app_nil_r. reflexivity.
    + rewrite (view_struct _ _ _ _ _ _ Hl Hdef), Ht. exact Hv1.
    + cbn [ProofPeel.nocyc]. rewrite Hl, Hdef. cbn [all2]. rewrite (chain_fresh _ _ _ _ _ _ _ _ _ Hc), Hn1.
      reflexivity.
  - destruct (IH _ _ _ _ He Hv Hn) as (v & l' & He1 & Hv1 & Hn1).
    destruct (transparent_true _ _ Ht) as (_ & Hdef).
    exists (VCompact v), (own_info t ++ l'). repeat split.
    + cbn [Spec.enc]. rewrite Hl, Hdef. exact He1.
    + rewrite (view_compact _ _ _ _ _ _ Hl Hdef), Ht. cbn [is_some andb]. rewrite Hv1. reflexivity.
    + cbn [ProofPeel.nocyc]. rewrite Hl, Hdef, (chain_fresh _ _ _ _ _ _ _ _ _ Hc), Hn1. reflexivity.
Qed.

Lemma plain_struct cpt id t f v bs : lookup id = Some t -> classify t = SpPlain ->
  def_of t = Some (TComposite [f]) -> enc cpt id v = Some bs ->
  exists v', v = VStruct [v'] /\ enc cpt (f_ty f) v' = Some bs.
Proof.
  intros Hl Hp Hd. destruct v; cbn [Spec.enc]; rewrite Hl, ?Hd, ?Hp; try discriminate.
  rename l into vs. cbn [List.length Nat.leb]. rewrite andb_false_r.
  destruct vs as [|v' [|w vs]]; cbn [enc_list]; try discriminate.
  - destruct (enc cpt (f_ty f) v') as [a|] eqn:Hv; [|discriminate]. rewrite app_nil_r.
    intros H. exists v'. rewrite Hv. auto.
  - destruct (enc cpt (f_ty f) v'); discriminate.
Qed.

Lemma plain_compact cpt id t inner v bs : lookup id = Some t -> classify t = SpPlain ->
  def_of t = Some (TCompact inner) -> enc cpt id v = Some bs ->
  exists v', v = VCompact v' /\ cpt = false /\ enc true inner v' = Some bs.
Proof.
  intros Hl Hp Hd. destruct v; cbn [Spec.enc]; rewrite Hl, ?Hd, ?Hp; try discriminate.
  destruct cpt; [discriminate|]. eauto.
Qed.

Lemma chain_unwrap seen cpt h id l seen' cpt' h' final :
  chain types seen cpt h id l seen' cpt' h' final ->
  forall v bs d l', enc cpt id v = Some bs -> view true h id v = Some (d, l') ->
  nocyc (seen ++ [id]) id v = true ->
  exists vf li, enc cpt' final vf = Some bs /\ view false h' final vf = Some (d, li) /\
    nocyc seen' final vf = true.
Proof.
  induction 1 as [seen cpt h id t Hf Hl Ht
                 |seen cpt h id t f l seen' cpt' h' final Hf Hl Ht Hd Hc IH
                 |seen h id t inner l seen' cpt' h' final Hf Hl Ht Hd Hc IH];
    intros v bs d l' He Hv Hn.
  - exists v, l'. repeat split; auto. erewrite <- view_opaque; eauto.
  - destruct (transparent_false _ _ Ht) as (f1 & Hd1 & _ & Hdef).
    rewrite Hd in Hd1. injection Hd1 as <-.
    destruct (plain_struct _ _ _ _ _ _ Hl (transparent_plain _ _ Ht) Hdef He) as (v' & -> & He1).
    rewrite (view_struct _ _ _ _ _ _ Hl Hdef), Ht in Hv.
    cbn [ProofPeel.nocyc] in Hn. rewrite Hl, Hdef in Hn. cbn [all2] in Hn.
    apply andb_true_iff in Hn. destruct Hn as [Hn _]. apply andb_true_iff in Hn. destruct Hn as [_ Hn].
    eapply IH; eauto.
  - destruct (transparent_true _ _ Ht) as (_ & Hdef).
    destruct (plain_compact _ _ _ _ _ _ Hl (transparent_plain _ _ Ht) Hdef He) as (v' & -> & _ & He1).
    rewrite (view_compact _ _ _ _ _ _ Hl Hdef), Ht in Hv. cbn [is_some andb] in Hv.
    destruct (view true h inner v') as [[d1 l1]|] eqn:Hv1; [|discriminate].
    injection Hv as <- <-.
    cbn [ProofPeel.nocyc] in Hn. rewrite Hl, Hdef in Hn.
    apply andb_true_iff in Hn. destruct Hn as [_ Hn].
    eapply IH; eauto.
Qed.

(** ** Recognition *)

Definition sig_kind (o : option fixed_kind) : sig_indicator :=
  match o with
  | Some KSigEcdsa => SigEcdsa
  | Some KSigEd25519 => SigEd25519
  | Some KSigSr25519 => SigSr25519
  | _ => SigNone
  end.

Context {E : Type}.
Local Notation reg := (@portable E types).

Lemma bare_signature_kinds f k : bare_signature types f = Some k ->
  k = KSigEcdsa \/ k = KSigEd25519 \/ k = KSigSr25519.
Proof.
  unfold bare_signature. destruct (f_type_name f) as [n|]; [|discriminate].
  unfold sig_names. cbn [find fst].
  destruct (String.eqb _ n); [|destruct (String.eqb _ n); [|destruct (String.eqb _ n); [|discriminate]]];
  destruct (peel_from types [] (f_ty f)) as [[? final]|]; try discriminate;
  destruct (lookup final) as [[? ? [] ?]|]; try discriminate;
  match goal with |- context [lookup ?x] => destruct (lookup x) as [[? ? [| | | | |[]| |] ?]|] end;
  try discriminate;
  match goal with |- context [match ?w with U8 => _ | _ => _ end] => destruct w end; try discriminate;
  match goal with |- context [if ?c then _ else _] => destruct c end; try discriminate;
  intros H; injection H as <-; auto.
Qed.

Lemma signature_from_field_okf f p (e : E) :
  okf (signature_from_field reg f) p e (sig_kind (bare_signature types f)) p.
Proof.
  unfold signature_from_field.
  destruct (peel_from types [] (f_ty f)) as [[l final]|] eqn:Hp.
  - pose proof Hp as Hp1. unfold peel_from in Hp1.
    destruct (peel_chain _ _ _ _ HNone _ _ _ Hp1) as (s & cc & hh & Hc).
    destruct (chain_husk_type types (E := E) checker_new _ _ _ _ _ _ Hc) as (cat & tf & _ & Hlf & Hok).
    eapply okf_bind; [apply okf_catch, Hok|]. cbn [hu_ty].
    unfold bare_signature. rewrite Hp, Hlf.
    destruct tf as [pa pr df dc]. cbn [t_def].
    assert (Hnone : forall x : option fixed_kind,
       match f_type_name f with
       | None => None
       | Some name => match find (fun y => String.eqb (fst y) name) sig_names with
                      | Some (_, _) => @None fixed_kind | None => None end
       end = None).
    { intros _. destruct (f_type_name f) as [n|]; auto. destruct (find _ _) as [[? ?]|]; auto. }
    destruct df as [| | |len elem| | | |]; try (rewrite (Hnone None); apply okf_ret).
    pose proof (resolve_total types elem p e) as Hr.
    destruct (lookup elem) as [[pa1 pr1 df1 dc1]|] eqn:Hle.
    + eapply okf_bind; [apply okf_catch, okf_ok, Hr|]. cbn [t_def].
      destruct df1 as [| | | | |x| |]; try (rewrite (Hnone None); apply okf_ret).
      destruct x as [| | |w| | |]; try (rewrite (Hnone None); apply okf_ret).
      destruct w; try (rewrite (Hnone None); apply okf_ret).
      destruct (f_type_name f) as [n|]; [|apply okf_ret].
      unfold str_in, SIGNATURE_ECDSA_ID_SET, SIGNATURE_ED25519_ID_SET, SIGNATURE_SR25519_ID_SET, sig_names.
      cbn [existsb find fst].
      rewrite (String.eqb_sym n "ecdsa::Signature"), (String.eqb_sym n "ed25519::Signature"),
        (String.eqb_sym n "sr25519::Signature"). rewrite !orb_false_r.
      destruct (String.eqb "ecdsa::Signature" n); [|destruct (String.eqb "ed25519::Signature" n);
        [|destruct (String.eqb "sr25519::Signature" n); [|apply okf_ret]]];
        rewrite fixed_len_raw; destruct (_ =? _)%N; apply okf_ret.
    + eapply catch_errf; [left; eexists; exact Hr|]. intros x. rewrite (Hnone None). apply okf_ret.
  - eapply catch_errf; [apply husk_type_no_chain; exact Hp|].
    intros x. unfold bare_signature. rewrite Hp.
    destruct (f_type_name f) as [n|]; [|apply okf_ret].
    destruct (find _ _) as [[? ?]|]; apply okf_ret.
Qed.

(** What [checked_from_type] finds, given the byte at the position; and by how much the
    position moves. *)
Definition checked_of (t : ty) (o : option N) : checked * nat :=
  match classify t with
  | SpPlain => (CNone, 0)
  | SpRaw k => (CFixed k, 0)
  | SpHash => (CH256, 0)
  | SpEra => (CEra, 0)
  | SpPer k => (CPer k, 0)
  | SpMultiSig =>
      match t_def t, o with
      | TVariant vs, Some i =>
          match by_index vs i with
          | Some var => match variant_sig t var with Some k => (CFixed k, 1) | None => (CNone, 0) end
          | None => (CNone, 0)
          end
      | _, _ => (CNone, 0)
      end
  | SpItem it =>
      match t_def t, o with
      | TVariant vs, Some i =>
          match by_index vs i with
          | Some var =>
              match pallet_items t var with
              | Some (inner, items) => (CPalletSpecific (v_name var) (info_from_ty inner) items it, 1)
              | None => (CNone, 0)
              end
          | None => (CNone, 0)
          end
      | _, _ => (CNone, 0)
      end
  end.

Variable data : bytes.
Local Notation buf := (@slice_buffer E data).

Lemma okf_pick {B} vs p (e : E) (k : variant + parser_err -> M E parser_err B) b q :
  (forall i v, nth_error data p = Some i -> by_index vs i = Some v -> okf (k (inl v)) p e b q) ->
  ((forall i, nth_error data p = Some i -> by_index vs i = None) ->
     forall x, okf (k (inr x)) p e b q) ->
  okf (bind (catch (pick_variant buf vs p)) k) p e b q.
Proof.
  intros H1 H2. pose proof (pick_variant_total data vs p p e) as Hp.
  destruct (nth_error data p) as [i|] eqn:Hn.
  - destruct (by_index vs i) as [v|] eqn:Hi.
    + eapply okf_bind; [apply okf_catch, okf_ok, Hp|]. eauto.
    + eapply catch_errf; [left; eauto|]. apply H2. intros i' Hi'. congruence.
  - destruct Hp as (x & Hp). eapply catch_errf; [left; eauto|]. apply H2. discriminate.
Qed.

Lemma get_pos_bind {B} p (e : E) (k : nat -> M E parser_err B) b q :
  okf (k p) p e b q -> okf (bind get_pos k) p e b q.
Proof. intros H. eapply okf_bind; [left; reflexivity|]. exact H. Qed.

Lemma checked_from_type_okf t p (e : E) :
  okf (checked_from_type buf reg t) p e (fst (checked_of t (nth_error data p)))
      (p + snd (checked_of t (nth_error data p))).
Proof.
  unfold checked_from_type, checked_of. rewrite hinted_classify. unfold hinted_of.
  assert (H0 : forall k : checked, okf (@ret E parser_err checked k) p e (fst (k, 0%nat)) (p + snd (k, 0%nat))).
  { intros k. cbn [fst snd]. rewrite Nat.add_0_r. apply okf_ret. }
  destruct (classify t) as [|k| | |k| |it] eqn:Hc; try apply H0.
  - destruct (strs_eqb _ _); apply H0.
  - destruct (t_def t) as [|vs| | | | | |]; try apply H0.
    apply get_pos_bind, okf_pick.
    + intros i var Hi Hv. rewrite Hi, Hv. unfold Spec.variant_sig. rewrite Hc.
      destruct (v_fields var) as [|f [|]]; try apply H0.
      eapply okf_bind; [apply signature_from_field_okf|].
      destruct (bare_signature types f) as [k|] eqn:Hb; [|apply H0].
      destruct (bare_signature_kinds _ _ Hb) as [-> | [-> | ->] ]; left; reflexivity.
    + intros Hno x. destruct (nth_error data p) as [i|]; [rewrite (Hno i eq_refl)|]; apply H0.
  - destruct (t_def t) as [|vs| | | | | |]; try apply H0.
    apply get_pos_bind, okf_pick.
    + intros i var Hi Hv. rewrite Hi, Hv. unfold Spec.pallet_items.
      destruct (v_fields var) as [|f [|]]; try apply H0.
      pose proof (resolve_total types (f_ty f) p e) as Hr.
      destruct (lookup (f_ty f)) as [inner|] eqn:Hl.
      * eapply okf_bind; [apply okf_catch, okf_ok, Hr|]. cbv beta iota.
        rewrite hinted_classify. unfold hinted_of. rewrite Hc.
        destruct (classify inner) as [|k| | |k| |it'];
          try (destruct (t_def inner); try destruct it; apply H0).
        -- destruct (strs_eqb _ _); destruct (t_def inner); try destruct it; apply H0.
        -- destruct it, it'; cbn [pitem_eqb item_eqb]; destruct (t_def inner); try apply H0;
             left; reflexivity.
      * eapply catch_errf; [left; eauto|]. intros x. apply H0.
    + intros Hno x. destruct (nth_error data p) as [i|]; [rewrite (Hno i eq_refl)|]; apply H0.
Qed.

Lemma okf_inv {X A} (m : M E X A) p e a q b q' e' :
  okf m p e a q -> m p e = (Ok b, q', e') -> b = a /\ q' = q /\ e' = e.
Proof.
  intros [H|(x & y & H)] H1; rewrite H in H1; [inversion H1; auto|discriminate].
Qed.

Lemma checked_from_type_inv t p (e : E) k q e' :
  checked_from_type buf reg t p e = (Ok k, q, e') ->
  e' = e /\ (k, q) = (fst (checked_of t (nth_error data p)),
                      (p + snd (checked_of t (nth_error data p)))%nat).
Proof.
  intros H. destruct (okf_inv _ _ _ _ _ _ _ _ (checked_from_type_okf t p e) H) as (-> & -> & ->). auto.
Qed.

End SpecEq.
