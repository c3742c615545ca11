(** Proofs for C77. *)
From Coq Require Import Lia.
From Verif Require Import Base Compact Types Indicators Decode Sign Unchecked Balance Cards Spec SpecSign SpecCards SpecSee SpecTransfer SpecIncluded
  SpecUnchecked Api ApiSign ProofBase ProofLeaf ProofWf ProofCor ProofSign2 ProofTransfer ProofUnchecked.
From Verif Require ProofCards2 PropSee.
Local Open Scope string_scope.
Local Open Scope list_scope.

Section Parts.
Variable types : list ty.
Variable s : signing.
Hypothesis ok : proper s.

Lemma path_label_known t : path_label t =
  if String.eqb "CheckNonce" (List.last (t_path t) "") then HCheckNonce
  else if String.eqb "ChargeTransactionPayment" (List.last (t_path t) "") then HChargeTransactionPayment
  else if String.eqb "ChargeAssetTxPayment" (List.last (t_path t) "") then HChargeAssetTxPayment else HNone.
Proof. unfold path_label, path_labels. cbn [find fst]. repeat match goal with |- context [if ?b then _ else _] => destruct b; [reflexivity|] end. reflexivity. Qed.

(** As an element of the tuple of extensions. *)
Definition looks_inside (x : ext pdata) (lines : short_specs -> list string) : Prop :=
  nothing_hidden (x_data x) /\ forall b58 icon specs name bits,
    map (show bits) (card_ext b58 icon specs name x 1 true) = map indented (lines specs).

Lemma inside_nothing x lines : x_data x = DTuple [] \/ x_data x = DComposite [] -> (forall a, lines a = []) -> looks_inside x lines.
Proof.
  intros H L. split; [destruct H as [-> | ->]; repeat split|].
  intros b58 icon specs name bits. rewrite L. unfold card_ext, card_ext_with. destruct H as [-> | ->]; reflexivity.
Qed.

Lemma inside_plain x d lines : (x_data x = d \/ exists f, x_data x = DComposite [f] /\ fd_name f = None /\ x_data (fd_data f) = d) ->
  nothing_hidden d ->
  (forall b58 icon specs name bits inf, map (show bits) (card b58 icon specs name d inf 1 true) = map indented (lines specs)) -> looks_inside x lines.
Proof.
  intros H Hh L. split.
  { destruct H as [-> |(f & -> & Hn & Hf)]; [exact Hh|]. unfold nothing_hidden in *. cbn [everywhere]. rewrite Hf. repeat split. exact Hh. }
  intros b58 icon specs name bits. unfold card_ext, card_ext_with. destruct H as [-> |(f & -> & Hn & Hf)]; [apply L|].
  cbn [card]. rewrite Hn. unfold card_unnamed_single_field. rewrite Hf. apply L.
Qed.

(** Wrapped, with no label needed. *)
Lemma made_wrapped_any P h id bs d : perhaps_wrapped types P id ->
  (forall h j, P j -> exists x, made types h j bs x /\ x_data x = d) ->
  exists x, made types h id bs x /\ (x_data x = d \/ exists f, x_data x = DComposite [f] /\ fd_name f = None /\ x_data (fd_data f) = d).
Proof.
  intros [Hp|(f & (t & Hl & Hc & Hd) & Hn & Hp)] H; [destruct (H h id Hp) as (x & H1 & H2); eauto|].
  destruct (H (or_label (pass_label h 1) (field_label f)) _ Hp) as (x & (v & He & Hv) & Hx).
  exists (Ext (DComposite [field_form f (x_data x, x_info x)]) (own_info t)). split.
  - exists (VStruct [v]). cbn [enc view]. rewrite Hl. unfold def_of. rewrite Hc, Hd. cbn [List.length andb]. split.
    + cbn [enc_list]. rewrite He. rewrite app_nil_r. reflexivity.
    + cbn [view_list]. rewrite Hv. reflexivity.
  - right. exists (field_form f (x_data x, x_info x)). split; [reflexivity|]. split; [exact Hn|exact Hx].
Qed.

Definition put_in (m : ext_meta) : Prop := exists t x,
  lookup types (em_ty m) = Some t /\ made types (path_label t) (em_ty m) (extension_bytes s (em_identifier m)) x /\
  looks_inside x (fun specs => extension_lines specs s (em_identifier m)).

Lemma inside_empty h id lines : takes_no_bytes types id -> (forall a, lines a = []) -> exists x, made types h id [] x /\ looks_inside x lines.
Proof. intros H L. destruct (made_nothing types h id H) as (x & Hm & Hx). exists x. split; [exact Hm|apply inside_nothing; assumption]. Qed.

Lemma usual_put_in m : usual_extension types m -> named_alike types m -> put_in m.
Proof.
  destruct ok as (Ke & Kn & Kt & Kv & Kx & Kgb & Kgl & Kbb & Kbl & _).
  intros H (t & Hl & Hn). exists t. rewrite path_label_known, Hn. clear Hn.
  destruct H as [e a He Ha|e a He Ha|e a He Ha|e a He Ha|e a He Ha|e a He Ha|e a He Ha|e a He Ha|i e a Hi He Ha];
    cbn [em_identifier em_ty em_additional] in *.
  - destruct (inside_empty HNone e (fun _ => []) He (fun _ => eq_refl)) as (x & H). exists x. exact (conj Hl H).
  - destruct (inside_empty HNone e (fun _ => []) He (fun _ => eq_refl)) as (x & H). exists x. exact (conj Hl H).
  - destruct (inside_empty HNone e (fun _ => []) He (fun _ => eq_refl)) as (x & H). exists x. exact (conj Hl H).
  - destruct (made_wrapped_any _ HNone e (era_enc (sg_era s)) (DEra (sg_era s)) He) as (x & Hm & Hx).
    { intros h j Hj. exact (made_era types h j _ Hj Ke). }
    exists x. split; [exact Hl|]. split; [exact Hm|]. apply (inside_plain _ _ _ Hx); [repeat split|]. intros. cbn [card map]. unfold show. cbn [ec_card ec_indent].
    unfold extension_lines. cbn [String.eqb Ascii.eqb Bool.eqb]. destruct (sg_era s); reflexivity.
  - destruct (made_wrapped types _ HCheckNonce e (compact_enc (sg_nonce s)) (DUInt U32 (sg_nonce s) SuNonce) ltac:(discriminate) He) as (x & Hm & Hx).
    { intros j Hj. exact (made_compact types HCheckNonce j U32 _ Hj Kn). }
    exists x. split; [exact Hl|]. split; [exact Hm|]. apply (inside_plain _ _ _ Hx); [repeat split|]. reflexivity.
  - destruct (made_wrapped types _ HChargeTransactionPayment e (compact_enc (sg_tip s)) (DUInt U128 (sg_tip s) SuTip) ltac:(discriminate) He) as (x & Hm & Hx).
    { intros j Hj. exact (made_compact types HChargeTransactionPayment j U128 _ Hj Kt). }
    exists x. split; [exact Hl|]. split; [exact Hm|]. apply (inside_plain _ _ _ Hx); [repeat split|]. reflexivity.
  - destruct (made_asset_tip types e _ He Kt) as (x & f1 & f2 & docs & Hm & Hx & N1 & X1 & N2 & X2).
    exists x. split; [exact Hl|]. split; [exact Hm|]. split.
    + rewrite Hx. unfold nothing_hidden. cbn [everywhere]. rewrite X1, X2. repeat split.
    + intros b58 icon specs name bits. unfold card_ext, card_ext_with. rewrite Hx. cbn [card card_field_set]. unfold card_ext_with.
      rewrite N1, N2, X1, X2. reflexivity.
  - destruct (made_hash_mode types HNone e (match sg_metadata_hash s with None => false | Some _ => true end) He) as (x & f & docs & Hm & Hx & N1 & X1).
    exists x. split; [exact Hl|]. split; [|split].
    + change (extension_bytes s "CheckMetadataHash") with (match sg_metadata_hash s with None => [0%N] | Some _ => [1%N] end).
      destruct (sg_metadata_hash s); exact Hm.
    + rewrite Hx. unfold nothing_hidden. cbn [everywhere]. rewrite X1. repeat split.
    + intros b58 icon specs name bits. unfold card_ext, card_ext_with. rewrite Hx. cbn [card card_field_set]. unfold card_ext_with.
      rewrite N1, X1. cbn [extension_lines String.eqb Ascii.eqb Bool.eqb]. unfold hash_mode_lines. destruct (sg_metadata_hash s); reflexivity.
  - unfold extension_bytes, extension_lines. rewrite !(String.eqb_sym _ i).
    rewrite !(unknown_differs i _ Hi) by (unfold known_extensions; cbn [In]; tauto).
    destruct (inside_empty HNone e (fun _ => []) He (fun _ => eq_refl)) as (x & H). exists x. exact (conj Hl H).
Qed.

(** The tuple. *)
Lemma made_extra id l : ordinary types id (TTuple (map em_ty l)) -> l <> [] -> Forall (fun m => put_in m) l ->
  exists x, made types HNone id (extra_bytes s l) x /\ nothing_hidden (x_data x) /\ forall b58 icon specs name bits,
    map (show bits) (card_ext b58 icon specs name x 0 true) = extra_lines specs s l.
Proof.
  intros (t & Hl & Hc & Hd) Hne Hall.
  assert (G : exists vs xs, enc_list (enc types false) (map em_ty l) vs = Some (extra_bytes s l) /\ List.length xs = List.length l /\
    (forall n, view_list (fun i v => match lookup types i with
        | Some ti => option_map (fun x => Ext (fst x) (snd x)) (view types false (or_label (pass_label HNone n) (path_label ti)) i v)
        | None => None end) (map em_ty l) vs = Some xs) /\
    Forall (fun x => nothing_hidden (x_data x)) xs /\
    forall b58 icon specs name bits, map (show bits) (card_tuple (card b58 icon specs name) xs 1 true) =
      flat_map (fun m => map indented (extension_lines specs s (em_identifier m))) l).
  { clear Hne Hd. induction Hall as [|m l (ti & x & Li & (v & He & Hv) & Hh & Hs) _ (vs & xs & E & Len & V & N & C)].
    - exists [], []. repeat split. constructor.
    - exists (v :: vs), (x :: xs). cbn [map enc_list view_list List.length flat_map extra_bytes]. rewrite He, E. split; [reflexivity|].
      split; [congruence|]. split; [|split; [constructor; assumption|] ].
      + intros n. rewrite V, Li. replace (or_label (pass_label HNone n) (path_label ti)) with (path_label ti)
          by (unfold pass_label; destruct (Nat.leb 2 n); reflexivity).
        rewrite Hv. cbn [option_map fst snd]. destruct x. reflexivity.
      + intros b58 icon specs name bits. cbn [card_tuple]. rewrite map_app, C. rewrite <- Hs with (b58 := b58) (icon := icon) (name := name) (bits := bits).
        reflexivity. }
  destruct G as (vs & xs & E & Len & V & N & C).
  exists (Ext (DTuple xs) (own_info t)). split; [|split].
  - exists (VTuple vs). cbn [enc view]. rewrite Hl. unfold def_of. rewrite Hc, Hd. cbn [andb]. split; [exact E|].
    rewrite V. reflexivity.
  - unfold nothing_hidden in *. cbn [x_data everywhere]. split; [exact I|]. clear - N. induction N; cbn; auto.
  - intros b58 icon specs name bits. unfold card_ext, card_ext_with. cbn [x_data card]. destruct xs as [|x xs]; [destruct l; [congruence|discriminate]|].
    cbn [map]. rewrite C, Len. reflexivity.
Qed.

Definition signature_form (form : option string) (k : fixed_kind) (l : bytes) (d : pdata) : Prop :=
  match form with
  | None => d = DFixed k l
  | Some name => exists docs f, d = DVariant (VData name docs [f]) /\ fd_name f = None /\ x_data (fd_data f) = DFixed k l
  end.

Lemma made_signature id n form k l : signature_type types id n form k -> (n < 256)%N -> is_bytes l -> List.length l = raw_len k ->
  exists x, made types HNone id (n :: l) x /\ signature_form form k l (x_data x).
Proof.
  intros (t & vs & v & f & Hl & Hc & Hd & Hi & Hf & Hk) Hn Hb Hlen. apply N.ltb_lt in Hn. destruct form as [name|].
  - destruct Hk as (Hbs & Hname & Hfn & (ta & Hla & Hca)).
    assert (Hs : variant_sig types t v = None) by (unfold variant_sig; rewrite Hc, Hf; exact Hbs).
    assert (Hpi : pallet_items types t v = None).
    { unfold pallet_items. rewrite Hf, Hla. destruct (t_def ta); try reflexivity. rewrite Hc, Hca. reflexivity. }
    exists (Ext (DVariant (VData name (docs_text (v_docs v)) [field_form f (DFixed k l, own_info ta)])) (own_info t)).
    split; [|do 2 eexists; split; [reflexivity|]; split; [exact Hfn|reflexivity] ].
    exists (VEnum n [VRaw l]). cbn [enc view]. rewrite Hl. unfold def_of. rewrite Hc, Hd, Hi, Hs, Hpi, Hf, Hn. split.
    + cbn [negb andb enc_list enc]. rewrite Hla, Hca. unfold guard. rewrite (is_bytesb_ok l Hb), Hlen, Nat.eqb_refl. cbn [negb andb option_map].
      rewrite app_nil_r. reflexivity.
    + cbn [view_list view]. rewrite Hla, Hca, Hname. reflexivity.
  - exists (Ext (DFixed k l) (own_info t)). split; [|reflexivity].
    exists (VSig n l). assert (Hs : variant_sig types t v = Some k) by (unfold variant_sig; rewrite Hc, Hf; exact Hk).
    cbn [enc view]. rewrite Hl. unfold def_of. rewrite Hc, Hd, Hi, Hs. split; [|reflexivity].
    unfold guard. rewrite (is_bytesb_ok l Hb), Hlen, Nat.eqb_refl, Hn. reflexivity.
Qed.

Lemma signature_shown form k l d : is_signature k -> signature_form form k l d ->
  nothing_hidden d /\ forall b58 icon specs name bits inf, map (show bits) (card b58 icon specs name d inf 0 true) = signature_lines form k l.
Proof.
  intros Hk. destruct form as [nm|]; cbn [signature_form].
  - intros (docs & f & -> & Hf & Xf). split.
    + unfold nothing_hidden. cbn [everywhere vd_fields]. rewrite Xf. destruct Hk as [-> | [-> | ->] ]; repeat split.
    + intros b58 icon specs name bits inf. cbn [card vd_fields vd_name vd_docs card_variant_fields]. rewrite Hf. unfold card_unnamed_single_field. rewrite Xf.
      destruct Hk as [-> | [-> | ->] ]; reflexivity.
  - intros ->. split; [repeat split|]. intros. destruct Hk as [-> | [-> | ->] ]; reflexivity.
Qed.
End Parts.
