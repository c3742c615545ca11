(** Proofs for C76. *)
From Coq Require Import Lia.
From Verif Require Import Base Compact Types Indicators Decode Sign Balance Cards Spec SpecSign SpecCards SpecSee SpecTransfer Api ApiSign
  ProofBase ProofLeaf ProofWf ProofCor ProofSign2.
From Verif Require ProofCards2 PropSign.
Local Open Scope string_scope.
Local Open Scope list_scope.

Lemma is_bytesb_ok l : is_bytes l -> is_bytesb l = true.
Proof. intros H. unfold is_bytesb. apply forallb_forall. intros b Hb. apply N.ltb_lt. unfold is_bytes in H. rewrite Forall_forall in H. exact (H b Hb). Qed.

Section Chain.
Variable types : list ty.
Hypothesis acyc : acyclic types.

Lemma hinted_trip h id v bs x pre post : enc types false id v = Some bs ->
  view types false h id v = Some (x_data x, x_info x) -> is_bytes (pre ++ post) ->
  decode_hinted h types (pre ++ bs ++ post) id (List.length pre) = (Ok x, (List.length pre + List.length bs)%nat).
Proof.
  intros He Hv Hb. apply hinted_complete.
  - apply is_bytes_app in Hb. destruct Hb. apply is_bytes_app. split; [assumption|].
    apply is_bytes_app. split; [eapply enc_bytes; eauto|assumption].
  - exists v, bs. repeat split; auto; [|apply has_mid].
    eapply acyclic_nocyc; eauto. intros c Hc. destruct Hc.
Qed.

(** What a wallet has to put in for a type: the value, its bytes and form. *)
Definition made (h : hint) (id : N) (bs : bytes) (x : ext pdata) : Prop :=
  exists v, enc types false id v = Some bs /\ view types false h id v = Some (x_data x, x_info x).

Lemma made_nothing h id : takes_no_bytes types id -> exists x, made h id [] x /\ (x_data x = DTuple [] \/ x_data x = DComposite []).
Proof.
  intros [(t & Hl & Hc & Hd)|(t & Hl & Hc & Hd)].
  - exists (Ext (DTuple []) (own_info t)). split; [|auto]. exists (VTuple []). unfold def_of. cbn [enc view]. rewrite Hl. unfold def_of. rewrite Hc, Hd. split; reflexivity.
  - exists (Ext (DComposite []) (own_info t)). split; [|auto]. exists (VStruct []). cbn [enc view]. rewrite Hl. unfold def_of. rewrite Hc, Hd. split; reflexivity.
Qed.

Lemma made_u32 h id n : ordinary types id (TPrimitive (PrU U32)) -> fits U32 n = true ->
  exists x, made h id (le_bytes 4 n) x /\ x_data x = DUInt U32 n (uint_labels h).
Proof.
  intros (t & Hl & Hc & Hd) Hf. exists (Ext (DUInt U32 n (uint_labels h)) (own_info t)). split; [|reflexivity].
  exists (VNum n). cbn [enc view]. rewrite Hl. unfold def_of. rewrite Hc, Hd. unfold guard. rewrite Hf. split; reflexivity.
Qed.

Lemma made_hash h id l : recognised types id SpHash -> is_bytes l -> List.length l = 32%nat ->
  exists x, made h id l x /\ x_data x = DHash (hash_label h) l.
Proof.
  intros (t & Hl & Hc) Hb Hn. exists (Ext (DHash (hash_label h) l) (own_info t)). split; [|reflexivity].
  exists (VRaw l). cbn [enc view]. rewrite Hl, Hc. unfold guard. rewrite (is_bytesb_ok l Hb), Hn. split; reflexivity.
Qed.

Lemma made_era h id e : recognised types id SpEra -> era_valid e = true ->
  exists x, made h id (era_enc e) x /\ x_data x = DEra e.
Proof.
  intros (t & Hl & Hc) Hv. exists (Ext (DEra e) (own_info t)). split; [|reflexivity].
  exists (VEra e). cbn [enc view]. rewrite Hl, Hc. unfold guard. rewrite Hv. split; reflexivity.
Qed.

Lemma made_compact h id w n : compact_number types w id -> fits w n = true ->
  exists x, made h id (compact_enc n) x /\ x_data x = DUInt w n (uint_labels h).
Proof.
  intros (j & (t & Hl & Hc & Hd) & (t' & Hl' & Hc' & Hd')) Hf.
  exists (Ext (DUInt w n (uint_labels h)) (own_info t ++ own_info t')). split; [|reflexivity].
  exists (VCompact (VNum n)). cbn [enc view]. rewrite Hl. unfold def_of. rewrite Hc, Hd. cbn [enc view]. rewrite Hl'. unfold def_of. rewrite Hc', Hd'.
  unfold guard. rewrite Hf. split; reflexivity.
Qed.

Lemma made_wrapped P h id bs d : h <> HNone -> perhaps_wrapped types P id ->
  (forall j, P j -> exists x, made h j bs x /\ x_data x = d) ->
  exists x, made h id bs x /\ (x_data x = d \/ exists f, x_data x = DComposite [f] /\ fd_name f = None /\ x_data (fd_data f) = d).
Proof.
  intros Hh [Hp|(f & (t & Hl & Hc & Hd) & Hn & Hp)] H; [destruct (H id Hp) as (x & H1 & H2); eauto|].
  destruct (H _ Hp) as (x & (v & He & Hv) & Hx).
  assert (Hor : or_label (pass_label h 1) (field_label f) = h) by (destruct h; try reflexivity; congruence).
  exists (Ext (DComposite [field_form f (x_data x, x_info x)]) (own_info t)). split.
  - exists (VStruct [v]). cbn [enc view]. rewrite Hl. unfold def_of. rewrite Hc, Hd. cbn [List.length andb]. split.
    + cbn [enc_list]. rewrite He. rewrite app_nil_r. reflexivity.
    + cbn [view_list]. rewrite Hor, Hv. reflexivity.
  - right. exists (field_form f (x_data x, x_info x)). split; [reflexivity|]. split; [exact Hn|exact Hx].
Qed.

Lemma made_none h id l v : ordinary types id (TVariant l) -> by_index l 0 = Some v -> v_name v = "None" -> v_fields v = [] ->
  exists x, made h id [0%N] x /\ exists docs, x_data x = DVariant (VData "None" docs []).
Proof.
  intros (t & Hl & Hc & Hd) Hi Hn Hf.
  exists (Ext (DVariant (VData "None" (docs_text (v_docs v)) [])) (own_info t)). split; [|eexists; reflexivity].
  exists (VEnum 0 []). cbn [enc view]. rewrite Hl. unfold def_of. rewrite Hc, Hd, Hi.
  assert (Hsig : variant_sig types t v = None) by (unfold variant_sig; rewrite Hc; reflexivity).
  assert (Hpi : pallet_items types t v = None) by (unfold pallet_items; rewrite Hf; reflexivity).
  rewrite Hsig, Hpi, Hf. split; [reflexivity|]. cbn [view_list]. rewrite Hn. reflexivity.
Qed.

Lemma made_unit h id l n name : ordinary types id (TVariant l) -> has_variant l n name [] -> (n < 256)%N ->
  exists x, made h id [n] x /\ exists docs, x_data x = DVariant (VData name docs []).
Proof.
  intros (t & Hl & Hc & Hd) (v & Hi & Hn & Hf) Hlt. apply N.ltb_lt in Hlt.
  exists (Ext (DVariant (VData name (docs_text (v_docs v)) [])) (own_info t)). split; [|eexists; reflexivity].
  exists (VEnum n []). cbn [enc view]. rewrite Hl. unfold def_of. rewrite Hc, Hd, Hi.
  assert (Hsig : variant_sig types t v = None) by (unfold variant_sig; rewrite Hc; reflexivity).
  assert (Hpi : pallet_items types t v = None) by (unfold pallet_items; rewrite Hf; reflexivity).
  rewrite Hsig, Hpi, Hf, Hlt. split; [reflexivity|]. cbn [view_list]. rewrite Hn. reflexivity.
Qed.

Lemma made_hash_mode h id (m : bool) : hash_mode types id ->
  exists x f docs, made h id [if m then 1%N else 0%N] x /\ x_data x = DComposite [f] /\ fd_name f = Some "mode" /\
    x_data (fd_data f) = DVariant (VData (if m then "Enabled" else "Disabled") docs []).
Proof.
  intros (mode & l & (t & Hl & Hc & Hd) & Hn & Ho & H0 & H1).
  destruct (made_unit (or_label (pass_label h 1) (field_label mode)) (f_ty mode) l (if m then 1%N else 0%N) (if m then "Enabled" else "Disabled") Ho)
    as (x & (v & E & V) & docs & X); [destruct m; assumption|destruct m; reflexivity|].
  exists (Ext (DComposite [field_form mode (x_data x, x_info x)]) (own_info t)). do 2 eexists.
  split; [|split; [reflexivity|split; [exact Hn|exact X] ] ].
  exists (VStruct [v]). cbn [enc view]. rewrite Hl. unfold def_of. rewrite Hc, Hd. cbn [List.length andb]. split.
  - cbn [enc_list]. rewrite E. reflexivity.
  - cbn [view_list]. rewrite V. reflexivity.
Qed.

(** An array of bytes. *)
Lemma bytes_array el h : ordinary types el (TPrimitive (PrU U8)) -> is_bytes h ->
  enc_all (enc types false el) (map VNum h) = Some h /\
  (fix go (vs : list value) : option (list pdata) :=
     match vs with
     | [] => Some []
     | v :: vs' => match view types true HNone el v, go vs' with Some (d, _), Some ds => Some (d :: ds) | _, _ => None end
     end) (map VNum h) = Some (map (fun b => DUInt U8 b SuNone) h) /\
  exists inf, peel_from types [] el = Some (inf, el).
Proof.
  intros (t & Hl & Hc & Hd) Hb. split; [|split].
  - induction Hb as [|b h Hlt _ IH]; [reflexivity|]. cbn [map enc_all]. cbn [enc_all] in IH.
    assert (E : enc types false el (VNum b) = Some [b]).
    { cbn [enc]. rewrite Hl. unfold def_of. rewrite Hc, Hd. unfold guard.
      assert (F : fits U8 b = true) by (apply N.ltb_lt; exact Hlt). rewrite F. cbn [usize le_bytes]. rewrite N.mod_small by exact Hlt. reflexivity. }
    unfold enc_all in *. rewrite E, IH. reflexivity.
  - clear Hb. induction h as [|b h IH]; [reflexivity|]. cbn [map]. rewrite IH.
    assert (E : view types true HNone el (VNum b) = Some (DUInt U8 b SuNone, own_info t)).
    { cbn [view]. rewrite Hl. unfold def_of. rewrite Hc, Hd. reflexivity. }
    rewrite E. reflexivity.
  - exists (own_info t). unfold peel_from. cbn [peel existsb]. rewrite Hl.
    assert (E : transparent t = None). { unfold transparent. rewrite Hc, Hd. destruct (strs_eqb (t_path t) opaque_path); reflexivity. }
    rewrite E. reflexivity.
Qed.

Lemma collected inf h : h <> [] -> sequence_of inf (map (fun b => DUInt U8 b SuNone) h) = DSequence inf (SeqU U8 h).
Proof.
  intros Hne. unfold sequence_of, collect. destruct h as [|b h]; [congruence|]. cbn [map].
  assert (E : forall l, map_opt (fun d => match d with DUInt w' n SuNone => if width_eqb U8 w' then Some n else None | _ => None end)
    (map (fun b => DUInt U8 b SuNone) l) = Some l).
  { induction l as [|c l IH]; [reflexivity|]. cbn [map map_opt]. rewrite IH. reflexivity. }
  specialize (E (b :: h)). cbn [map] in E. rewrite E. reflexivity.
Qed.

Lemma made_hash_addition h id l : hash_addition types id -> is_bytes l -> List.length l = 32%nat ->
  exists x docs f inf, made h id (1%N :: l) x /\ x_data x = DVariant (VData "Some" docs [f]) /\
    fd_name f = None /\ x_data (fd_data f) = DSequence inf (SeqU U8 l).
Proof.
  intros (vs & f & el & (t & Hl & Hc & Hd) & _ & (v & Hi & Hn & Hf) & Hfn & (ta & Hla & Hca & Hda) & Hel) Hb H32.
  destruct (bytes_array el l Hel Hb) as (E & V & inf & P).
  assert (Hsig : variant_sig types t v = None) by (unfold variant_sig; rewrite Hc; reflexivity).
  assert (Hpi : pallet_items types t v = None) by (unfold pallet_items; rewrite Hf, Hla, Hda; reflexivity).
  exists (Ext (DVariant (VData "Some" (docs_text (v_docs v)) [field_form f (DSequence inf (SeqU U8 l), own_info ta)])) (own_info t)).
  do 2 eexists. exists inf. split; [|split; [reflexivity|split; [exact Hfn|reflexivity] ] ].
  exists (VEnum 1 [VArr (map VNum l)]). split.
  - cbn [enc]. rewrite Hl. unfold def_of. rewrite Hc, Hd, Hi, Hsig, Hpi, Hf. cbn [enc_list enc]. rewrite Hla. unfold def_of. rewrite Hca, Hda.
    rewrite map_length, H32, E. change ((32 =? N.of_nat 32)%N) with true. change ((1 <? 256)%N) with true. cbn [negb andb option_map].
    rewrite app_nil_r. reflexivity.
  - cbn [view]. rewrite Hl. unfold def_of. rewrite Hc, Hd, Hi, Hf. cbn [view_list view]. rewrite Hla. unfold def_of. rewrite Hca, Hda, P, V.
    rewrite collected by (intros ->; discriminate). rewrite Hn. reflexivity.
Qed.

Lemma made_asset_tip id n : asset_tip types id -> fits U128 n = true ->
  exists x f1 f2 docs, made HChargeAssetTxPayment id (compact_enc n ++ [0%N]) x /\ x_data x = DComposite [f1; f2] /\
    fd_name f1 = Some "tip" /\ x_data (fd_data f1) = DUInt U128 n SuTipAsset /\
    fd_name f2 = Some "asset_id" /\ x_data (fd_data f2) = DVariant (VData "None" docs []).
Proof.
  intros (tip & asset & l & v & (t & Hl & Hc & Hd) & Hn1 & H1 & Hn2 & H2 & Hi & Hv & Hf) Hfit.
  destruct (made_compact HChargeAssetTxPayment _ _ n H1 Hfit) as (x1 & (v1 & E1 & V1) & X1).
  destruct (made_none HChargeAssetTxPayment _ l v H2 Hi Hv Hf) as (x2 & (v2 & E2 & V2) & docs & X2).
  exists (Ext (DComposite [field_form tip (x_data x1, x_info x1); field_form asset (x_data x2, x_info x2)]) (own_info t)).
  do 2 eexists. exists docs. split; [|repeat split; [exact Hn1|exact X1|exact Hn2|exact X2] ].
  exists (VStruct [v1; v2]). cbn [enc view]. rewrite Hl. unfold def_of. rewrite Hc, Hd. cbn [List.length andb]. split.
  - cbn [enc_list]. rewrite E1, E2. reflexivity.
  - cbn [view_list pass_label Nat.leb or_label]. rewrite V1, V2. reflexivity.
Qed.

(** The call. *)
Lemma made_address h id dest : address_type types id -> is_bytes dest -> List.length dest = 32%nat ->
  exists x docs f, made h id (0%N :: dest) x /\ x_data x = DVariant (VData "Id" docs [f]) /\
    fd_name f = None /\ x_data (fd_data f) = DFixed KAccountId32 dest.
Proof.
  intros (l & v & f & (t & Hl & Hc & Hd) & Hi & Hn & Hf & Hfn & (ta & Hla & Hca)) Hb H32.
  exists (Ext (DVariant (VData "Id" (docs_text (v_docs v)) [field_form f (DFixed KAccountId32 dest, own_info ta)])) (own_info t)),
    (docs_text (v_docs v)), (field_form f (DFixed KAccountId32 dest, own_info ta)).
  split; [|repeat split; exact Hfn]. exists (VEnum 0 [VRaw dest]). cbn [enc view]. rewrite Hl. unfold def_of. rewrite Hc, Hd, Hi.
  assert (Hsig : variant_sig types t v = None) by (unfold variant_sig; rewrite Hc; reflexivity).
  assert (Hpi : pallet_items types t v = None).
  { unfold pallet_items. rewrite Hf, Hla. destruct (t_def ta); try reflexivity. rewrite Hc, Hca. reflexivity. }
  rewrite Hsig, Hpi, Hf. split.
  - cbn [negb andb enc_list enc N.ltb N.compare]. rewrite Hla, Hca. unfold guard. rewrite (is_bytesb_ok dest Hb), H32. cbn [negb andb raw_len Nat.eqb].
    cbn [option_map]. rewrite app_nil_r. reflexivity.
  - cbn [view_list view]. rewrite Hla, Hca, Hn. reflexivity.
Qed.

Lemma made_transfer call_ty i j name dest amount : transfer_call types call_ty i j name -> (i < 256)%N -> (j < 256)%N ->
  is_bytes dest -> List.length dest = 32%nat -> fits U128 amount = true ->
  exists x info docs d vdocs f v, made HNone call_ty (transfer_bytes i j dest amount) x /\
    x_data x = DCall (PSData info docs "Balances" name [d; v]) /\
    fd_name d = Some "dest" /\ x_data (fd_data d) = DVariant (VData "Id" vdocs [f]) /\
    fd_name f = None /\ x_data (fd_data f) = DFixed KAccountId32 dest /\
    fd_name v = Some "value" /\ x_data (fd_data v) = DUInt U128 amount SuBalance.
Proof.
  intros (t & pallets & pallet & f & inner & calls & call & fd & fv & Hl & Hc & Hd & Hi & Hpn & Hpf & Hli & Hci & Hdi & Hj & Hcn & Hcf & Hdn & Hvn & Hlab & Ha & Hv)
    Li Lj Hb H32 Hfit.
  destruct (made_address (or_label (pass_label HNone 2) (field_label fd)) (f_ty fd) dest Ha Hb H32) as (xd & vdocs & fi & (vd & Ed & Vd) & Xd & Fn & Xf).
  destruct (made_compact (or_label (pass_label HNone 2) (field_label fv)) (f_ty fv) U128 amount Hv Hfit) as (xv & (vv & Ev & Vv) & Xv).
  rewrite Hlab in Xv. cbn [pass_label Nat.leb or_label uint_labels] in Xv.
  exists (Ext (DCall (PSData (Info (docs_text (t_docs inner)) (t_path inner)) (docs_text (v_docs call)) "Balances" name
      [field_form fd (x_data xd, x_info xd); field_form fv (x_data xv, x_info xv)])) (own_info t)).
  do 2 eexists. exists (field_form fd (x_data xd, x_info xd)), vdocs, fi, (field_form fv (x_data xv, x_info xv)).
  split; [|repeat split; [exact Hdn|exact Xd|exact Fn|exact Xf|exact Hvn|exact Xv] ].
  exists (VItem i j [vd; vv]). 
  assert (Hpi : pallet_items types t pallet = Some (inner, calls)).
  { unfold pallet_items. rewrite Hpf, Hli, Hdi, Hc, Hci. reflexivity. }
  split.
  - change (enc types false call_ty (VItem i j [vd; vv])) with
      (match lookup types call_ty with None => None | Some t => match def_of t with
          | Some (TVariant variants) =>
              match by_index variants i with
              | Some var =>
                  match pallet_items types t var with
                  | Some (_, items) =>
                      match by_index items j with
                      | Some item =>
                          if negb false && (i <? 256)%N && (j <? 256)%N then
                            option_map (fun l => i :: j :: l)
                              (enc_list (fun f => enc types false (f_ty f)) (v_fields item) [vd; vv])
                          else None
                      | None => None
                      end
                  | None => None
                  end
              | None => None
              end
          | _ => None
          end end).
    rewrite Hl. unfold def_of. rewrite Hc, Hd, Hi, Hpi, Hj, Hcf. apply N.ltb_lt in Li, Lj. rewrite Li, Lj. cbn [negb andb enc_list]. rewrite Ed, Ev.
    cbn [option_map]. rewrite app_nil_r. reflexivity.
  - cbn [view]. rewrite Hl. unfold def_of. rewrite Hc, Hd, Hi, Hpi, Hj, Hcf. cbn [view_list List.length]. rewrite Vd, Vv.
    cbn [option_map]. rewrite Hpn, Hcn. reflexivity.
Qed.
End Chain.

(** ** The extensions *)

Definition found_in_extension (s : signing) (i : string) : option finding :=
  if String.eqb i "CheckMortality" then Some (FEra (sg_era s)) else None.
Definition found_in_addition (s : signing) (i : string) : option finding :=
  if String.eqb i "CheckSpecVersion" then Some (FVersion (sg_version s))
  else if String.eqb i "CheckGenesis" then Some (FGenesis (sg_genesis s))
  else if String.eqb i "CheckMortality" then Some (FBlock (sg_block s))
  else None.

Definition looks_like (x : ext pdata) (lines : short_specs -> string -> list string) : Prop :=
  nothing_hidden (x_data x) /\ forall b58 icon specs name bits,
    map (show bits) (card_ext b58 icon specs name x 0 true) = lines specs name.

Lemma looks_nothing x lines : x_data x = DTuple [] \/ x_data x = DComposite [] -> (forall a b, lines a b = []) -> looks_like x lines.
Proof.
  intros H L. split; [destruct H as [-> | ->]; repeat split|].
  intros b58 icon specs name bits. rewrite L. unfold card_ext, card_ext_with. destruct H as [-> | ->]; reflexivity.
Qed.

Lemma found_nothing x : x_data x = DTuple [] \/ x_data x = DComposite [] -> finding_of x = None.
Proof. unfold finding_of. intros [-> | ->]; reflexivity. Qed.

Lemma looks_plain x d lines : (x_data x = d \/ exists f, x_data x = DComposite [f] /\ fd_name f = None /\ x_data (fd_data f) = d) ->
  nothing_hidden d ->
  (forall b58 icon specs name bits inf, map (show bits) (card b58 icon specs name d inf 0 true) = lines specs name) -> looks_like x lines.
Proof.
  intros H Hh L. split.
  { destruct H as [-> |(f & -> & Hn & Hf)]; [exact Hh|]. unfold nothing_hidden in *. cbn [everywhere]. rewrite Hf. repeat split. exact Hh. }
  intros b58 icon specs name bits. unfold card_ext, card_ext_with. destruct H as [-> |(f & -> & Hn & Hf)]; [apply L|].
  cbn [card]. rewrite Hn. unfold card_unnamed_single_field. rewrite Hf. apply L.
Qed.

Lemma found_plain x d : (x_data x = d \/ exists f, x_data x = DComposite [f] /\ fd_name f = None /\ x_data (fd_data f) = d) ->
  (forall l, d <> DComposite l) -> finding_of x = finding_in d.
Proof.
  intros [H|(f & H & Hn & Hf)] Hd; unfold finding_of; rewrite H; [|rewrite Hf; reflexivity].
  destruct d; try reflexivity. exfalso. eapply Hd. reflexivity.
Qed.

Lemma unknown_differs i k : ~ In i known_extensions -> In k known_extensions -> String.eqb i k = false.
Proof. intros H Hk. apply String.eqb_neq. intros ->. exact (H Hk). Qed.

Section Extension.
Variable types : list ty.
Variable s : signing.
Hypothesis ok : proper s.

Definition prepared (m : ext_meta) : Prop :=
  (exists x, made types (extension_hint (em_identifier m)) (em_ty m) (extension_bytes s (em_identifier m)) x /\
     finding_of x = found_in_extension s (em_identifier m) /\
     looks_like x (fun specs _ => extension_lines specs s (em_identifier m))) /\
  (exists x, made types (extension_hint (em_identifier m)) (em_additional m) (additional_bytes s (em_identifier m)) x /\
     finding_of x = found_in_addition s (em_identifier m) /\
     looks_like x (fun _ name => additional_lines name s (em_identifier m))).

Lemma nothing_prepared h id lines : takes_no_bytes types id -> (forall a b, lines a b = []) ->
  exists x, made types h id [] x /\ finding_of x = None /\ looks_like x lines.
Proof.
  intros H L. destruct (made_nothing types h id H) as (x & Hm & Hx). exists x. split; [exact Hm|].
  split; [apply found_nothing, Hx|apply looks_nothing; assumption].
Qed.

Lemma usual_prepared m : usual_extension types m -> prepared m.
Proof.
  destruct ok as (Ke & Kn & Kt & Kv & Kx & Kgb & Kgl & Kbb & Kbl & _ & Kmh).
  intros H. destruct H as [e a He Ha|e a He Ha|e a He Ha|e a He Ha|e a He Ha|e a He Ha|e a He Ha|e a He Ha|i e a Hi He Ha];
    unfold prepared; cbn [em_identifier em_ty em_additional].
  - split; [exact (nothing_prepared _ _ _ He (fun _ _ => eq_refl))|].
    destruct (made_u32 types HCheckSpecVersion a _ Ha Kv) as (x & Hm & Hx). exists x. split; [exact Hm|].
    split; [unfold finding_of; rewrite Hx; reflexivity|apply (looks_plain _ _ _ (or_introl Hx)); [repeat split|reflexivity] ].
  - split; [exact (nothing_prepared _ _ _ He (fun _ _ => eq_refl))|].
    destruct (made_u32 types HCheckTxVersion a _ Ha Kx) as (x & Hm & Hx). exists x. split; [exact Hm|].
    split; [unfold finding_of; rewrite Hx; reflexivity|apply (looks_plain _ _ _ (or_introl Hx)); [repeat split|reflexivity] ].
  - split; [exact (nothing_prepared _ _ _ He (fun _ _ => eq_refl))|].
    destruct (made_hash types HCheckGenesis a _ Ha Kgb Kgl) as (x & Hm & Hx). exists x. split; [exact Hm|].
    split; [unfold finding_of; rewrite Hx; reflexivity|apply (looks_plain _ _ _ (or_introl Hx)); [repeat split|reflexivity] ].
  - split.
    + destruct (made_wrapped types _ HCheckMortality e (era_enc (sg_era s)) (DEra (sg_era s)) ltac:(discriminate) He) as (x & Hm & Hx).
      { intros j Hj. exact (made_era types HCheckMortality j _ Hj Ke). }
      exists x. split; [exact Hm|]. split; [rewrite (found_plain _ _ Hx) by discriminate; reflexivity|].
      apply (looks_plain _ _ _ Hx); [repeat split|]. intros. cbn [card map]. unfold show. cbn [ec_card ec_indent]. unfold extension_lines. cbn [String.eqb Ascii.eqb Bool.eqb].
      destruct (sg_era s); reflexivity.
    + destruct (made_hash types HCheckMortality a _ Ha Kbb Kbl) as (x & Hm & Hx). exists x. split; [exact Hm|].
      split; [unfold finding_of; rewrite Hx; reflexivity|apply (looks_plain _ _ _ (or_introl Hx)); [repeat split|reflexivity] ].
  - split; [|exact (nothing_prepared _ _ _ Ha (fun _ _ => eq_refl))].
    destruct (made_wrapped types _ HCheckNonce e (compact_enc (sg_nonce s)) (DUInt U32 (sg_nonce s) SuNonce) ltac:(discriminate) He) as (x & Hm & Hx).
    { intros j Hj. exact (made_compact types HCheckNonce j U32 _ Hj Kn). }
    exists x. split; [exact Hm|]. split; [rewrite (found_plain _ _ Hx) by discriminate; reflexivity|].
    apply (looks_plain _ _ _ Hx); [repeat split|]. reflexivity.
  - split; [|exact (nothing_prepared _ _ _ Ha (fun _ _ => eq_refl))].
    destruct (made_wrapped types _ HChargeTransactionPayment e (compact_enc (sg_tip s)) (DUInt U128 (sg_tip s) SuTip) ltac:(discriminate) He) as (x & Hm & Hx).
    { intros j Hj. exact (made_compact types HChargeTransactionPayment j U128 _ Hj Kt). }
    exists x. split; [exact Hm|]. split; [rewrite (found_plain _ _ Hx) by discriminate; reflexivity|].
    apply (looks_plain _ _ _ Hx); [repeat split|]. reflexivity.
  - split; [|exact (nothing_prepared _ _ _ Ha (fun _ _ => eq_refl))].
    destruct (made_asset_tip types e _ He Kt) as (x & f1 & f2 & docs & Hm & Hx & N1 & X1 & N2 & X2).
    exists x. split; [exact Hm|]. split; [unfold finding_of; rewrite Hx; reflexivity|]. split.
    + rewrite Hx. unfold nothing_hidden. cbn [everywhere]. rewrite X1, X2. repeat split.
    + intros b58 icon specs name bits. unfold card_ext, card_ext_with. rewrite Hx. cbn [card card_field_set]. unfold card_ext_with.
      rewrite N1, N2, X1, X2. reflexivity.
  - split.
    + destruct (made_hash_mode types HNone e (match sg_metadata_hash s with None => false | Some _ => true end) He) as (x & f & docs & Hm & Hx & N1 & X1).
      exists x. split; [|split; [unfold finding_of; rewrite Hx, X1; destruct (sg_metadata_hash s); reflexivity|split] ].
      * change (extension_bytes s "CheckMetadataHash") with (match sg_metadata_hash s with None => [0%N] | Some _ => [1%N] end).
        destruct (sg_metadata_hash s); exact Hm.
      * rewrite Hx. unfold nothing_hidden. cbn [everywhere]. rewrite X1. repeat split.
      * intros b58 icon specs name bits. unfold card_ext, card_ext_with. rewrite Hx. cbn [card card_field_set]. unfold card_ext_with.
        rewrite N1, X1. cbn [extension_lines String.eqb Ascii.eqb Bool.eqb]. unfold hash_mode_lines. destruct (sg_metadata_hash s); reflexivity.
    + change (additional_bytes s "CheckMetadataHash") with (match sg_metadata_hash s with None => [0%N] | Some h => 1%N :: h end).
      destruct (sg_metadata_hash s) as [h|] eqn:Eh.
      * destruct Kmh as (Kb & Kl). destruct (made_hash_addition types HNone a h Ha Kb Kl) as (x & docs & f & inf & Hm & Hx & N1 & X1).
        exists x. split; [exact Hm|]. split; [unfold finding_of; rewrite Hx; reflexivity|]. split.
        { rewrite Hx. unfold nothing_hidden. cbn [everywhere vd_fields]. rewrite X1. repeat split. }
        intros b58 icon specs name bits. unfold card_ext, card_ext_with. rewrite Hx. cbn [card vd_fields vd_name vd_docs card_variant_fields]. rewrite N1.
        unfold card_unnamed_single_field. rewrite X1. cbn [card card_sequence].
        change (additional_lines name s "CheckMetadataHash") with (hash_lines s). unfold hash_lines. rewrite Eh.
        cbn [map app]. unfold show, seq_u8_card. cbn [ec_card ec_indent]. destruct (text_of h); reflexivity.
      * destruct Ha as (l & f & el & Ho & H0 & _). destruct (made_unit types HNone a l 0 "None" Ho H0 eq_refl) as (x & Hm & docs & Hx).
        exists x. split; [exact Hm|]. split; [unfold finding_of; rewrite Hx; reflexivity|]. split.
        { rewrite Hx. repeat split. }
        intros b58 icon specs name bits. unfold card_ext, card_ext_with. rewrite Hx.
        change (additional_lines name s "CheckMetadataHash") with (hash_lines s). unfold hash_lines. rewrite Eh. reflexivity.
  - unfold extension_bytes, additional_bytes, found_in_extension, found_in_addition, extension_lines, additional_lines.
    rewrite !(unknown_differs i _ Hi) by (unfold known_extensions; cbn [In]; tauto).
    split; [exact (nothing_prepared _ _ _ He (fun _ _ => eq_refl))|exact (nothing_prepared _ _ _ Ha (fun _ _ => eq_refl))].
Qed.
End Extension.

(** ** All of them *)

Section Sequence.
Variable types : list ty.
Hypothesis acyc : acyclic types.

Lemma turn_join data l1 l2 p xs1 q xs2 r : read_in_turn types data l1 p xs1 q -> read_in_turn types data l2 q xs2 r ->
  read_in_turn types data (l1 ++ l2) p (xs1 ++ xs2) r.
Proof. intros H1 H2. induction H1; [exact H2|]. cbn [app]. econstructor; eauto. Qed.

Lemma read_all (g : string -> bytes) seq xs :
  Forall2 (fun (p : string * N) x => made types (extension_hint (fst p)) (snd p) (g (fst p)) x) seq xs ->
  forall pre post, is_bytes (pre ++ post) ->
  is_bytes (flat_map (fun p => g (fst p)) seq) /\
  read_in_turn types (pre ++ flat_map (fun p => g (fst p)) seq ++ post) seq (List.length pre) xs
    (List.length pre + List.length (flat_map (fun p => g (fst p)) seq)).
Proof.
  induction 1 as [|[i id] x seq xs (v & He & Hv) _ IH]; intros pre post Hb; cbn [flat_map fst snd] in *.
  - split; [constructor|]. cbn [List.length app]. rewrite Nat.add_0_r. constructor.
  - pose proof (enc_bytes _ _ _ _ _ He) as Hg.
    assert (Hb' : is_bytes ((pre ++ g i) ++ post)).
    { unfold is_bytes in *. rewrite !Forall_app in *. tauto. }
    destruct (IH (pre ++ g i) post Hb') as (B & R).
    split; [unfold is_bytes in *; rewrite Forall_app; tauto|].
    rewrite <- app_assoc. eapply RT_cons.
    + apply (hinted_trip types acyc _ _ v); [exact He|exact Hv|]. unfold is_bytes in *. rewrite !Forall_app in *. tauto.
    + rewrite <- !app_assoc in R. rewrite app_length in R. rewrite app_length.
      replace (List.length pre + (List.length (g i) + List.length (flat_map (fun p => g (fst p)) seq)))%nat
        with (List.length pre + List.length (g i) + List.length (flat_map (fun p => g (fst p)) seq))%nat by lia. exact R.
Qed.
End Sequence.

Lemma one_of {A} (a : A) k ids : NoDup ids -> flat_map (fun i => if String.eqb i k then [a] else []) ids =
  if existsb (fun i => String.eqb i k) ids then [a] else [].
Proof.
  induction 1 as [|i ids Hi _ IH]; [reflexivity|]. cbn [flat_map existsb]. destruct (String.eqb_spec i k) as [-> |Hne]; [|exact IH].
  cbn [orb app]. rewrite IH. destruct (existsb _ ids) eqn:E; [|reflexivity].
  apply existsb_exists in E. destruct E as (k' & Hk & Ek). apply String.eqb_eq in Ek. subst k'. destruct (Hi Hk).
Qed.

Lemma at_most_one {A} (a : A) k ids : NoDup ids -> (List.length (flat_map (fun i => if String.eqb i k then [a] else []) ids) <= 1)%nat.
Proof. intros H. rewrite (one_of a k ids H). destruct (existsb _ _); cbn [List.length]; lia. Qed.

Lemma exactly_one {A} (a : A) k ids : NoDup ids -> In k ids -> flat_map (fun i => if String.eqb i k then [a] else []) ids = [a].
Proof.
  intros H Hk. rewrite (one_of a k ids H). destruct (existsb _ _) eqn:E; [reflexivity|]. exfalso.
  assert (T : existsb (fun i => String.eqb i k) ids = true) by (apply existsb_exists; exists k; split; [exact Hk|apply String.eqb_refl]). congruence.
Qed.

Lemma flat_map_eq {A B} (f g : A -> list B) l : (forall x, f x = g x) -> flat_map f l = flat_map g l.
Proof. intros H. induction l as [|x l IH]; [reflexivity|]. cbn [flat_map]. rewrite H, IH. reflexivity. Qed.

Lemma flat_map_none {A B} (f : A -> list B) l : (forall x, f x = []) -> flat_map f l = [].
Proof. intros H. induction l as [|x l IH]; [reflexivity|]. cbn [flat_map]. rewrite H. exact IH. Qed.

Definition opt_list {A} (o : option A) : list A := match o with Some a => [a] | None => [] end.

(** The findings of a list of prepared values. *)
Lemma sifted {B} (pick : finding -> list B) (f : string -> option finding) ids xs :
  Forall2 (fun i x => finding_of x = f i) ids xs ->
  flat_map pick (findings xs) = flat_map (fun i => flat_map pick (opt_list (f i))) ids.
Proof.
  induction 1 as [|i x ids xs H _ IH]; [reflexivity|]. unfold findings in *. cbn [flat_map]. rewrite flat_map_app, IH, H.
  destruct (f i); reflexivity.
Qed.

Lemma findings_app l1 l2 : findings (l1 ++ l2) = findings l1 ++ findings l2.
Proof. unfold findings. apply flat_map_app. Qed.

Section Judged.
Variable s : signing.
Variable ids : list string.
Variables xs1 xs2 : list (ext pdata).
Hypothesis dup : NoDup ids.
Hypothesis f1 : Forall2 (fun i x => finding_of x = found_in_extension s i) ids xs1.
Hypothesis f2 : Forall2 (fun i x => finding_of x = found_in_addition s i) ids xs2.

Lemma the_versions : versions (xs1 ++ xs2) = flat_map (fun i => if String.eqb i "CheckSpecVersion" then [sg_version s] else []) ids.
Proof.
  unfold versions. rewrite findings_app, flat_map_app, (sifted _ _ _ _ f1), (sifted _ _ _ _ f2).
  rewrite flat_map_none; [cbn [app]; apply flat_map_eq|]; intros i; unfold found_in_extension, found_in_addition;
    repeat match goal with |- context [String.eqb ?a ?b] => destruct (String.eqb_spec a b); try reflexivity; subst end; try discriminate.
Qed.

Lemma the_genesis : genesis_hashes (xs1 ++ xs2) = flat_map (fun i => if String.eqb i "CheckGenesis" then [sg_genesis s] else []) ids.
Proof.
  unfold genesis_hashes. rewrite findings_app, flat_map_app, (sifted _ _ _ _ f1), (sifted _ _ _ _ f2).
  rewrite flat_map_none; [cbn [app]; apply flat_map_eq|]; intros i; unfold found_in_extension, found_in_addition;
    repeat match goal with |- context [String.eqb ?a ?b] => destruct (String.eqb_spec a b); try reflexivity; subst end; try discriminate.
Qed.

Lemma the_blocks : block_hashes (xs1 ++ xs2) = flat_map (fun i => if String.eqb i "CheckMortality" then [sg_block s] else []) ids.
Proof.
  unfold block_hashes. rewrite findings_app, flat_map_app, (sifted _ _ _ _ f1), (sifted _ _ _ _ f2).
  rewrite flat_map_none; [cbn [app]; apply flat_map_eq|]; intros i; unfold found_in_extension, found_in_addition;
    repeat match goal with |- context [String.eqb ?a ?b] => destruct (String.eqb_spec a b); try reflexivity; subst end; try discriminate.
Qed.

Lemma the_eras : eras (xs1 ++ xs2) = flat_map (fun i => if String.eqb i "CheckMortality" then [sg_era s] else []) ids.
Proof.
  unfold eras. rewrite findings_app, flat_map_app, (sifted _ _ _ _ f1), (sifted _ _ _ _ f2).
  rewrite (flat_map_none (fun i => flat_map _ (opt_list (found_in_addition s i)))); [rewrite app_nil_r; apply flat_map_eq|]; intros i; unfold found_in_extension, found_in_addition;
    repeat match goal with |- context [String.eqb ?a ?b] => destruct (String.eqb_spec a b); try reflexivity; subst end; try discriminate.
Qed.
End Judged.

Lemma both_lists types s l : Forall (prepared types s) l -> exists xs1 xs2,
  Forall2 (fun (p : string * N) x => made types (extension_hint (fst p)) (snd p) (extension_bytes s (fst p)) x)
    (map (fun m => (em_identifier m, em_ty m)) l) xs1 /\
  Forall2 (fun (p : string * N) x => made types (extension_hint (fst p)) (snd p) (additional_bytes s (fst p)) x)
    (map (fun m => (em_identifier m, em_additional m)) l) xs2 /\
  Forall2 (fun i x => finding_of x = found_in_extension s i) (map em_identifier l) xs1 /\
  Forall2 (fun i x => finding_of x = found_in_addition s i) (map em_identifier l) xs2 /\
  Forall2 (fun m x => looks_like x (fun specs _ => extension_lines specs s (em_identifier m))) l xs1 /\
  Forall2 (fun m x => looks_like x (fun _ name => additional_lines name s (em_identifier m))) l xs2.
Proof.
  induction 1 as [|m l ((x1 & M1 & F1 & L1) & (x2 & M2 & F2 & L2)) _ (xs1 & xs2 & A & B & C & D & E & F)].
  - exists [], []. repeat split; constructor.
  - exists (x1 :: xs1), (x2 :: xs2). cbn [map]. repeat split; constructor; assumption.
Qed.

Lemma looks_all xs l (lines : short_specs -> string -> ext_meta -> list string) :
  Forall2 (fun m x => looks_like x (fun specs name => lines specs name m)) l xs ->
  forall b58 icon specs name bits, map (show bits) (card_extensions b58 icon specs name xs) = flat_map (lines specs name) l.
Proof.
  intros H b58 icon specs name bits. rewrite ProofCards2.extensions_concat.
  induction H as [|m x l xs (_ & H) _ IH]; [reflexivity|]. cbn [flat_map]. rewrite map_app, IH, H. reflexivity.
Qed.

Lemma hidden_all xs l (lines : ext_meta -> short_specs -> string -> list string) :
  Forall2 (fun m x => looks_like x (lines m)) l xs -> Forall (fun x => nothing_hidden (x_data x)) xs.
Proof. induction 1 as [|m x l xs (H & _) _ IH]; constructor; assumption. Qed.

Lemma flat_fst (g : string -> bytes) (k : ext_meta -> N) l :
  flat_map (fun p => g (fst p)) (map (fun m => (em_identifier m, k m)) l) = flat_map (fun m => g (em_identifier m)) l.
Proof. induction l as [|m l IH]; [reflexivity|]. cbn [map flat_map fst]. rewrite IH. reflexivity. Qed.

(** The extensions of a usual chain are accepted and shown. *)
Lemma usual_accepted ME (c : chain ME) s l nv g head call :
  acyclic (ch_types c) -> ch_extensions c = inl l -> usual_extensions (ch_types c) l -> ch_spec c = inl nv ->
  printed_spec_version nv = dec_string (sg_version s) -> proper s -> genesis_matches g (sg_genesis s) ->
  is_bytes (head ++ call) ->
  exists xs, extensions_of c g (head ++ call ++ all_extension_bytes s l) (Marked (List.length head) (List.length (head ++ call))) = Ok xs /\
    is_bytes (all_extension_bytes s l) /\ Forall (fun x => nothing_hidden (x_data x)) xs /\
    forall b58 icon specs name bits,
      map (show bits) (card_extensions b58 icon specs name xs) = all_extension_lines specs name s l.
Proof.
  intros Hac Hl (Hu & Hd & Hv & Hg) Hs Hp Hok Hm Hb.
  assert (Hpr : Forall (prepared (ch_types c) s) l) by (apply (Forall_impl _ (usual_prepared (ch_types c) s Hok)), Hu).
  destruct (both_lists _ _ _ Hpr) as (xs1 & xs2 & M1 & M2 & F1 & F2 & L1 & L2).
  exists (xs1 ++ xs2).
  assert (Hb0 : is_bytes ((head ++ call) ++ [])) by (rewrite app_nil_r; exact Hb).
  destruct (read_all _ Hac (extension_bytes s) _ _ M1 (head ++ call) [] Hb0) as (B1 & _).
  assert (Hb1 : is_bytes (((head ++ call) ++ flat_map (fun p => extension_bytes s (fst p)) (map (fun m => (em_identifier m, em_ty m)) l)) ++ [])).
  { rewrite app_nil_r. unfold is_bytes in *. apply Forall_app. split; assumption. }
  destruct (read_all _ Hac (additional_bytes s) _ _ M2 _ [] Hb1) as (B2 & R2).
  assert (Hb2 : is_bytes ((head ++ call) ++ flat_map (fun p => additional_bytes s (fst p)) (map (fun m => (em_identifier m, em_additional m)) l))).
  { unfold is_bytes in *. apply Forall_app. split; assumption. }
  destruct (read_all _ Hac (extension_bytes s) _ _ M1 (head ++ call) _ Hb2) as (_ & R1).
  rewrite !flat_fst in *. rewrite app_nil_r in R2.
  assert (Eq : head ++ call ++ all_extension_bytes s l =
    (head ++ call) ++ flat_map (fun m => extension_bytes s (em_identifier m)) l ++ flat_map (fun m => additional_bytes s (em_identifier m)) l).
  { unfold all_extension_bytes. rewrite !app_assoc. reflexivity. }
  rewrite <- app_assoc in R2. rewrite <- Eq in R1, R2. split; [|split; [|split] ].
  - apply (PropSign.c24_accepted ME c g _ _ _ l nv (sg_version s) (sg_genesis s) Hl Hs).
    + cbn [extensions_start]. unfold extension_sequence. eapply turn_join; [exact R1|].
      rewrite app_length in R2 at 1.
      replace (List.length (head ++ call ++ all_extension_bytes s l)) with
        (List.length ((head ++ call) ++ flat_map (fun m => extension_bytes s (em_identifier m)) l) +
         List.length (flat_map (fun m => additional_bytes s (em_identifier m)) l))%nat by (rewrite Eq, !app_length; lia).
      exact R2.
    + rewrite (the_versions s _ _ _ F1 F2). apply exactly_one; assumption.
    + symmetry. exact Hp.
    + rewrite (the_genesis s _ _ _ F1 F2). apply exactly_one; assumption.
    + exact Hm.
    + rewrite (the_eras s _ _ _ F1 F2). apply at_most_one. assumption.
    + rewrite (the_blocks s _ _ _ F1 F2). apply at_most_one. assumption.
    + rewrite (the_eras s _ _ _ F1 F2), (the_blocks s _ _ _ F1 F2), !one_of by assumption.
      destruct (existsb _ _); [|discriminate]. intros E h Eh. injection E as E. injection Eh as <-.
      destruct Hok as (_ & _ & _ & _ & _ & _ & _ & _ & _ & Hi & _). exact (Hi E).
  - unfold all_extension_bytes, is_bytes in *. apply Forall_app. split; assumption.
  - apply Forall_app. split; [exact (hidden_all _ _ _ L1)|exact (hidden_all _ _ _ L2)].
  - intros b58 icon specs name bits. unfold all_extension_lines. rewrite ProofCards2.extensions_concat, flat_map_app, map_app, <- !ProofCards2.extensions_concat.
    rewrite (looks_all xs1 l (fun specs _ m => extension_lines specs s (em_identifier m)) L1).
    rewrite (looks_all xs2 l (fun _ name m => additional_lines name s (em_identifier m)) L2). reflexivity.
Qed.
