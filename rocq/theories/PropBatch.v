(** C79: on a usual chain every call is accepted with the extensions as signed; and batches of
    transfers, however long and nested, are shown with exactly these transfers. *)
From Coq Require Import Lia.
From Verif Require Import Base Compact Types Indicators Decode Sign Balance Cards Spec SpecSign SpecCards SpecSee SpecTransfer SpecBatch Api ApiSign
  ProofBase ProofCompact ProofLeaf ProofWf ProofCor ProofSign2 ProofTransfer PropTransfer.
From Verif Require ProofPrefixFree ProofCards ProofShow ProofStorage PropSign PropSee Address PropAddress.
Local Open Scope string_scope.
Local Open Scope list_scope.

(** ** Any call *)

Section Call.
Context {ME : Type}.
Variable c : chain ME.
Variables (call_ty : N) (exts : list ext_meta) (nv : spec_name_version).
Hypothesis acyc : acyclic (ch_types c).
Hypothesis is_call : ch_call c = inl call_ty.
Hypothesis is_exts : ch_extensions c = inl exts.
Hypothesis usual : usual_extensions (ch_types c) exts.
Hypothesis is_spec : ch_spec c = inl nv.

Lemma call_accepted s g call x p : printed_spec_version nv = dec_string (sg_version s) -> proper s ->
  genesis_matches g (sg_genesis s) -> made (ch_types c) HNone call_ty call x -> x_data x = DCall p ->
  fits U32 (N.of_nat (List.length call)) = true ->
  exists xs,
    Forall (fun x => nothing_hidden (x_data x)) xs /\
    is_bytes (payload call (all_extension_bytes s exts)) /\
    transaction c g (payload call (all_extension_bytes s exts)) = Ok (TransactionParsed (inl p) xs) /\
    transaction_unmarked c g (call ++ all_extension_bytes s exts) = Ok (p, xs) /\
    forall b58 icon specs chain_name bits,
      map (show bits) (card_extensions b58 icon specs chain_name xs) = all_extension_lines specs chain_name s exts.
Proof.
  intros Hp Hok Hg (val & He & Hv) Hx Hlen.
  assert (Hcb : is_bytes call) by exact (enc_bytes _ _ _ _ _ He).
  set (head := compact_enc (N.of_nat (List.length call))).
  assert (Hhb : is_bytes head) by (apply (compact_enc_fits_is_bytes U32), Hlen).
  destruct (usual_accepted ME c s exts nv g head call acyc is_exts usual is_spec Hp Hok Hg) as (xs & Hxs & Heb & Hh & Hlines).
  { unfold is_bytes in *. apply Forall_app. split; assumption. }
  exists xs.
  assert (Ht : transaction c g (payload call (all_extension_bytes s exts)) = Ok (TransactionParsed (inl p) xs)).
  { unfold payload. fold head. rewrite transaction_eq.
    assert (Hce : is_bytes (call ++ all_extension_bytes s exts)) by (unfold is_bytes in *; apply Forall_app; split; assumption).
    unfold head. rewrite (mark_of (ME := ME) call _ Hlen Hce). cbv zeta. fold head. rewrite Hxs.
    pose proof (call_answer c (head ++ call ++ all_extension_bytes s exts) (Marked (List.length head) (List.length (head ++ call)))) as Hca.
    cbn [call_start extensions_start] in Hca. specialize (Hca ltac:(rewrite !app_length; lia)).
    assert (Hco : call_outcome c (head ++ call ++ all_extension_bytes s exts) (List.length head) (List.length (head ++ call)) (Ok p)).
    { apply (CO_call c _ _ _ call_ty x); [exact is_call| |exact Hx].
      rewrite app_assoc, firstn_app, Nat.sub_diag, firstn_O, app_nil_r, firstn_all.
      pose proof (hinted_trip _ acyc HNone call_ty val call x head []) as T. rewrite !app_nil_r in T.
      rewrite decode_at_hinted, app_length. apply T; assumption. }
    rewrite (call_outcome_unique c _ _ _ _ _ Hca Hco). reflexivity. }
  split; [exact Hh|split; [|split; [exact Ht|split; [|exact Hlines] ] ] ].
  - unfold payload. fold head. unfold is_bytes in *. rewrite !Forall_app. repeat split; assumption.
  - unfold payload in Ht. apply (PropSign.c25_marked_unmarked ME c g call (all_extension_bytes s exts)) in Ht; [exact (proj1 Ht)|exact Hlen|].
    unfold is_bytes in *. apply Forall_app. split; assumption.
Qed.
End Call.

(** ** Actions *)

Lemma u128 n : (n < 2 ^ 128)%N -> fits U128 n = true. Proof. apply N.ltb_lt. Qed.
Lemma u32 n : (n < 2 ^ 32)%N -> fits U32 n = true. Proof. apply N.ltb_lt. Qed.

Lemma action_induction (P : action -> Prop) : (forall i j name dest amount, P (Transfer i j name dest amount)) ->
  (forall i j name l, Forall P l -> P (Batch i j name l)) -> forall a, P a.
Proof.
  intros H1 H2. fix IH 1. intros [i j name dest amount|i j name l]; [apply H1|]. apply H2.
  induction l as [|a l IHl]; constructor; [apply IH|exact IHl].
Qed.

Lemma forall2_len A B (R : A -> B -> Prop) l1 l2 : Forall2 R l1 l2 -> List.length l1 = List.length l2.
Proof. induction 1; cbn [List.length]; congruence. Qed.

Section Actions.
Variable types : list ty.
Variable call_ty : N.

(** What becomes of an action. *)
Definition shown_as (a : action) (v : value) (p : psdata pdata) : Prop :=
  (exists info, enc types false call_ty v = Some (action_bytes a) /\
     (forall e, view types e HNone call_ty v = Some (DCall p, info))) /\
  nothing_hidden (DCall p) /\
  forall b58 icon specs name bits, map (show bits) (card_call b58 icon specs name p 0) = action_lines b58 specs a.

Lemma view_plain e h id v t : lookup types id = Some t -> transparent t = None -> view types e h id v = view types false h id v.
Proof. intros Hl Ht. destruct e; [|reflexivity]. destruct v; cbn [view]; rewrite Hl; try reflexivity; rewrite Ht; reflexivity. Qed.

Lemma call_plain t : classify t = SpItem ItCall -> transparent t = None.
Proof. intros H. unfold transparent. rewrite H. reflexivity. Qed.

Lemma seq_all l : Forall (possible types call_ty) l -> Forall (fun a => possible types call_ty a -> exists v p, shown_as a v p) l ->
  exists zs, Forall2 (fun a z => shown_as a (fst z) (snd z)) l zs.
Proof.
  induction l as [|a l IH]; intros H1 H2.
  - exists []. constructor.
  - inversion H1 as [|? ? P1 P2]. inversion H2 as [|? ? Q1 Q2]. subst. destruct (IH P2 Q2) as (zs & F). destruct (Q1 P1) as (v & p & S).
    exists ((v, p) :: zs). constructor; assumption.
Qed.

Lemma seq_enc l zs : Forall2 (fun a z => shown_as a (fst z) (snd z)) l zs ->
  enc_all (enc types false call_ty) (map fst zs) = Some (flat_map action_bytes l).
Proof.
  induction 1 as [|a z l zs ((info & E & _) & _) F IH]; [reflexivity|]. cbn [map flat_map].
  transitivity (match enc types false call_ty (fst z), enc_all (enc types false call_ty) (map fst zs) with Some a, Some b => Some (a ++ b) | _, _ => None end);
    [reflexivity|]. rewrite E, IH. reflexivity.
Qed.

Lemma seq_view l zs : Forall2 (fun a z => shown_as a (fst z) (snd z)) l zs ->
  (fix go (vs : list value) : option (list pdata) :=
     match vs with
     | [] => Some []
     | v :: vs' => match view types true HNone call_ty v, go vs' with Some (d, _), Some ds => Some (d :: ds) | _, _ => None end
     end) (map fst zs) = Some (map (fun z => DCall (snd z)) zs).
Proof.
  induction 1 as [|a z l zs ((info & _ & V) & _) F IH]; [reflexivity|]. cbn [map]. rewrite V, IH. reflexivity.
Qed.

Lemma seq_lines b58 icon specs name bits k u l zs : Forall2 (fun a z => shown_as a (fst z) (snd z)) l zs ->
  map (show bits) (card_elements (card b58 icon specs name) (map (fun z => DCall (snd z)) zs) k u) =
  flat_map (fun a => map (append (blanks (2 * k))) (action_lines b58 specs a)) l.
Proof.
  induction 1 as [|a z l zs (_ & _ & L) F IH]; [reflexivity|]. cbn [map card_elements flat_map]. rewrite map_app, IH. f_equal.
  change (card b58 icon specs name (DCall (snd z)) [] k u) with (card b58 icon specs name (DCall (snd z)) [] k true).
  rewrite <- (Nat.add_0_r k) at 1. rewrite ProofCards.cards_shift, map_map, <- (L b58 icon specs name bits), map_map. apply map_ext.
  intros [cd ind inf]. destruct (ProofShow.show_text bits cd) as (text & _ & T). unfold shift. cbn [ec_card ec_indent ec_info]. rewrite !T.
  replace (2 * (k + ind))%nat with (2 * k + 2 * ind)%nat by lia. clear. induction (2 * k)%nat as [|n IH]; [reflexivity|].
  cbn [Nat.add blanks append]. rewrite IH. reflexivity.
Qed.

Lemma seq_whole l zs : Forall2 (fun a z => shown_as a (fst z) (snd z)) l zs -> forall inf, nothing_hidden (DSequenceRaw inf (map (fun z => DCall (snd z)) zs)).
Proof.
  intros H inf. unfold nothing_hidden. split; [exact I|]. induction H as [|a z l zs (_ & N & _) F IH]; [exact I|]. split; [exact N|exact IH].
Qed.

Lemma item_enc t pallets pallet inner items call i j vs bs : lookup types call_ty = Some t -> classify t = SpItem ItCall -> t_def t = TVariant pallets ->
  by_index pallets i = Some pallet -> pallet_items types t pallet = Some (inner, items) -> by_index items j = Some call -> (i < 256)%N -> (j < 256)%N ->
  enc_list (fun f => enc types false (f_ty f)) (v_fields call) vs = Some bs ->
  enc types false call_ty (VItem i j vs) = Some (i :: j :: bs).
Proof.
  intros Hl Hc Hd Hi Hpi Hj Li Lj He. apply N.ltb_lt in Li, Lj.
  change (enc types false call_ty (VItem i j vs)) with
      (match lookup types call_ty with None => None | Some t => match def_of t with
          | Some (TVariant variants) =>
              match by_index variants i with
              | Some var =>
                  match pallet_items types t var with
                  | Some (_, items) =>
                      match by_index items j with
                      | Some item =>
                          if negb false && (i <? 256)%N && (j <? 256)%N then
                            option_map (fun l => i :: j :: l)
                              (enc_list (fun f => enc types false (f_ty f)) (v_fields item) vs)
                          else None
                      | None => None
                      end
                  | None => None
                  end
              | None => None
              end
          | _ => None
          end end).
  rewrite Hl. unfold def_of. rewrite Hc, Hd, Hi, Hpi, Hj, Li, Lj, He. reflexivity.
Qed.

Lemma made_action a : possible types call_ty a -> exists v p, shown_as a v p.
Proof.
  induction a as [i j name dest amount|i j name l IH] using action_induction; intros H; inversion H as [? ? ? ? ? Ht Hi Hj Hb H32 Ha|? ? ? ? Hc Hi Hj Hn Hl]; subst.
  - apply u128 in Ha.
    destruct (made_transfer types call_ty i j name dest amount Ht Hi Hj Hb H32 Ha)
      as (x & info & docs & d & vdocs & f & v & (val & He & Hv) & Hx & N1 & X1 & N2 & X2 & N3 & X3).
    exists val, (PSData info docs "Balances" name [d; v]). split; [|split].
    + exists (x_info x). split; [exact He|]. intros e.
      destruct Ht as (t & _ & _ & _ & _ & _ & _ & _ & _ & Hl & Hc & _). rewrite (view_plain e _ _ _ t Hl (call_plain t Hc)), Hv, Hx. reflexivity.
    + unfold nothing_hidden. cbn [everywhere ps_fields]. rewrite X1, X3. cbn [everywhere vd_fields]. rewrite X2. repeat split.
    + intros b58 icon specs cn bits. eapply transfer_shown; eassumption.
  - destruct (seq_all l Hl IH) as (zs & F). destruct Hc as (t & pallets & pallet & f & inner & items & call & fc & Hlk & Hc & Hd & Hpi & Hpn & Hpf & Hli & Hci & Hdi & Hci2 & Hcn & Hcf & Hfn & (ts & Hls & Hcs & Hds)).
    pose proof (seq_enc l zs F) as E. pose proof (seq_view l zs F) as V.
    assert (Hitems : pallet_items types t pallet = Some (inner, items)).
    { unfold pallet_items. rewrite Hpf, Hli, Hdi, Hc, Hci. reflexivity. }
    assert (Hpeel : exists inf, peel_from types [] call_ty = Some (inf, call_ty)).
    { exists (own_info t). unfold peel_from. cbn [peel existsb]. rewrite Hlk, (call_plain t Hc). reflexivity. }
    destruct Hpeel as (inf & Hpeel). pose proof (u32 _ Hn) as Hfit. pose proof (forall2_len _ _ _ _ _ F) as Hlen.
    assert (Hseq : sequence_of inf (map (fun z : value * psdata pdata => DCall (snd z)) zs) = DSequenceRaw inf (map (fun z => DCall (snd z)) zs)).
    { unfold sequence_of. destruct zs; reflexivity. }
    set (arg := field_form fc (DSequenceRaw inf (map (fun z : value * psdata pdata => DCall (snd z)) zs), own_info ts)).
    exists (VItem i j [VSeq (map fst zs)]), (PSData (Info (docs_text (t_docs inner)) (t_path inner)) (docs_text (v_docs call)) "Utility" name [arg]).
    split; [|split].
    + exists (own_info t). split.
      * apply (item_enc _ _ _ _ _ _ _ _ _ _ Hlk Hc Hd Hpi Hitems Hci2 Hi Hj). rewrite Hcf. 
        assert (Es : enc types false (f_ty fc) (VSeq (map fst zs)) = Some (compact_enc (N.of_nat (List.length l)) ++ flat_map action_bytes l)).
        { cbn [enc]. rewrite Hls. unfold def_of. rewrite Hcs, Hds, map_length, <- Hlen, Hfit, E. reflexivity. }
        cbn [enc_list]. rewrite Es, app_nil_r. reflexivity.
      * intros e. rewrite (view_plain e _ _ _ t Hlk (call_plain t Hc)).
        assert (Vs : forall h, view types false h (f_ty fc) (VSeq (map fst zs)) = Some (DSequenceRaw inf (map (fun z => DCall (snd z)) zs), own_info ts)).
        { intros h. cbn [view]. rewrite Hls. unfold def_of. rewrite Hcs, Hds, Hpeel, V, Hseq. reflexivity. }
        cbn [view]. rewrite Hlk. unfold def_of. rewrite Hc, Hd, Hpi, Hitems, Hci2, Hcf. cbn [view_list List.length]. rewrite Vs. cbn [option_map]. rewrite Hpn, Hcn. reflexivity.
    + unfold nothing_hidden. cbn [everywhere ps_fields]. split; [exact I|]. split; [|exact I]. exact (seq_whole l zs F inf).
    + intros b58 icon specs cn bits. unfold card_call, card_pallet_specific. cbn [ps_fields card_variant_fields]. unfold arg. cbn [fd_name field_form]. rewrite Hfn.
      cbn [card_field_set fd_name fd_data field_form fst snd]. rewrite Hfn. unfold card_ext_with. cbn [x_data x_info card map app].
      rewrite app_nil_r, (seq_lines b58 icon specs cn bits _ _ l zs F), map_length, <- Hlen. reflexivity.
Qed.
End Actions.

(** The bytes tell the action. *)
Section Told.
Variable types : list ty.
Variable call_ty : N.

(** The names of the pallet and of the call are those in the metadata. *)
Definition named_in_metadata (i j : N) (pallet_name name : string) : Prop :=
  exists t pallets pallet f inner items call,
    lookup types call_ty = Some t /\ t_def t = TVariant pallets /\ by_index pallets i = Some pallet /\ v_name pallet = pallet_name /\ v_fields pallet = [f] /\
    lookup types (f_ty f) = Some inner /\ t_def inner = TVariant items /\ by_index items j = Some call /\ v_name call = name.

Lemma transfer_named i j name : transfer_call types call_ty i j name -> named_in_metadata i j "Balances" name.
Proof.
  intros (t & pallets & pallet & f & inner & items & call & fd & fv & H1 & _ & H2 & H3 & H4 & H5 & H6 & _ & H7 & H8 & H9 & _).
  exists t, pallets, pallet, f, inner, items, call. exact (conj H1 (conj H2 (conj H3 (conj H4 (conj H5 (conj H6 (conj H7 (conj H8 H9)))))))).
Qed.
Lemma batch_named i j name : batch_call types call_ty i j name -> named_in_metadata i j "Utility" name.
Proof.
  intros (t & pallets & pallet & f & inner & items & call & fc & H1 & _ & H2 & H3 & H4 & H5 & H6 & _ & H7 & H8 & H9 & _).
  exists t, pallets, pallet, f, inner, items, call. exact (conj H1 (conj H2 (conj H3 (conj H4 (conj H5 (conj H6 (conj H7 (conj H8 H9)))))))).
Qed.
Lemma named_once i j p n p' n' : named_in_metadata i j p n -> named_in_metadata i j p' n' -> p = p' /\ n = n'.
Proof.
  intros (t & pallets & pallet & f & inner & items & call & H1 & H2 & H3 & H4 & H5 & H6 & H7 & H8 & H9)
    (t' & pallets' & pallet' & f' & inner' & items' & call' & G1 & G2 & G3 & G4 & G5 & G6 & G7 & G8 & G9).
  assert (E1 : t' = t) by congruence. rewrite E1 in *. assert (E2 : pallets' = pallets) by congruence. rewrite E2 in *.
  assert (E3 : pallet' = pallet) by congruence. rewrite E3 in *. assert (E4 : f' = f) by congruence. rewrite E4 in *.
  assert (E5 : inner' = inner) by congruence. rewrite E5 in *. assert (E6 : items' = items) by congruence. rewrite E6 in *.
  split; congruence.
Qed.

Lemma count_told n m r s : (n < 2 ^ 32)%N -> (m < 2 ^ 32)%N -> compact_enc n ++ r = compact_enc m ++ s -> n = m /\ r = s.
Proof. intros Hn Hm. apply (ProofPrefixFree.compact_free U32); apply u32; assumption. Qed.
Lemma amount_told n m r s : (n < 2 ^ 128)%N -> (m < 2 ^ 128)%N -> compact_enc n ++ r = compact_enc m ++ s -> n = m /\ r = s.
Proof. intros Hn Hm. apply (ProofPrefixFree.compact_free U128); apply u128; assumption. Qed.

Lemma two_told (i j i' j' : N) r s : i :: j :: r = i' :: j' :: s -> i = i' /\ j = j' /\ r = s.
Proof. intros H. injection H as -> -> ->. auto. Qed.

Lemma action_told a : forall b r s, possible types call_ty a -> possible types call_ty b -> action_bytes a ++ r = action_bytes b ++ s -> a = b /\ r = s.
Proof.
  induction a as [i j name dest amount|i j name l IH] using action_induction; intros b r s Ha Hb H;
    inversion Ha as [? ? ? ? ? Ht Hi Hj Hbd H32 Ham|? ? ? ? Hc Hi Hj Hn Hl]; clear Ha; subst;
    destruct b as [i' j' name' dest' amount'|i' j' name' l']; cbn [action_bytes] in H; unfold transfer_bytes in H; rewrite <- ?app_comm_cons in H;
    apply two_told in H; destruct H as (E1 & E2 & H); rewrite <- E1, <- E2 in *; clear E1 E2;
    inversion Hb as [? ? ? ? ? Ht' Hi' Hj' Hbd' H32' Ham'|? ? ? ? Hc' Hi' Hj' Hn' Hl']; clear Hb; subst.
  - destruct (named_once _ _ _ _ _ _ (transfer_named _ _ _ Ht) (transfer_named _ _ _ Ht')) as [_ En]. rewrite En in *.
    apply (f_equal (@tl N)) in H. cbn [tl] in H. rewrite <- !app_assoc in H.
    apply ProofPrefixFree.app_same_length in H; [|congruence]. destruct H as [Ed H]. apply amount_told in H; [|assumption|assumption]. destruct H as [Em H].
    rewrite Ed, Em. auto.
  - destruct (named_once _ _ _ _ _ _ (transfer_named _ _ _ Ht) (batch_named _ _ _ Hc')) as [En _]. discriminate En.
  - destruct (named_once _ _ _ _ _ _ (batch_named _ _ _ Hc) (transfer_named _ _ _ Ht')) as [En _]. discriminate En.
  - destruct (named_once _ _ _ _ _ _ (batch_named _ _ _ Hc) (batch_named _ _ _ Hc')) as [_ En]. rewrite En in *. rewrite <- !app_assoc in H.
    apply count_told in H; [|assumption|assumption]. destruct H as [El H]. apply Nnat.Nat2N.inj in El.
    assert (G : l = l' /\ r = s); [|destruct G as [-> ->]; auto]. clear - IH Hl Hl' El H. revert l' Hl' El H.
    induction IH as [|a l Ha _ IHl]; intros [|b l'] Hl' El H; try discriminate El; [auto|]. inversion Hl as [|? ? P1 P2]. inversion Hl' as [|? ? Q1 Q2]. subst.
    cbn [flat_map] in H. rewrite <- !app_assoc in H. apply (Ha b _ _ P1 Q1) in H. destruct H as [-> H]. injection El as El.
    destruct (IHl P2 l' Q2 El H) as [-> ->]. auto.
Qed.
End Told.

(** ** The theorems *)

(** Any call whatever: its bytes in a payload with the bytes of the extensions are accepted, the
    call is parsed to what it is (C03), the extensions are shown as signed. *)
Theorem c79_call : forall ME (c : chain ME) call_ty exts nv s g v call p info,
  acyclic (ch_types c) ->
  ch_call c = inl call_ty -> ch_extensions c = inl exts -> usual_extensions (ch_types c) exts ->
  ch_spec c = inl nv -> printed_spec_version nv = dec_string (sg_version s) ->
  proper s -> g = None \/ g = Some (sg_genesis s) ->
  enc (ch_types c) false call_ty v = Some call -> view (ch_types c) false HNone call_ty v = Some (DCall p, info) ->
  (N.of_nat (List.length call) < 2 ^ 32)%N ->
  exists xs,
    transaction c g (payload call (all_extension_bytes s exts)) = Ok (TransactionParsed (inl p) xs) /\
    transaction_unmarked c g (call ++ all_extension_bytes s exts) = Ok (p, xs) /\
    forall b58 icon specs chain_name bits,
      map (show bits) (card_extensions b58 icon specs chain_name xs) = all_extension_lines specs chain_name s exts.
Proof.
  intros ME c call_ty exts nv s g v call p info Ha Hc He Hu Hs Hv Hp Hg En Vi Hl.
  destruct (call_accepted c call_ty exts nv Ha Hc He Hu Hs s g call (Ext (DCall p) info) p Hv Hp) as (xs & _ & _ & H);
    [destruct Hg as [-> | ->]; [exact I|reflexivity]|exists v; split; assumption|reflexivity|apply u32, Hl|].
  exists xs. exact H.
Qed.
Print Assumptions c79_call.

(** Transfers and batches, as long and as nested as one likes. *)
Theorem c79_batch : forall ME (c : chain ME) call_ty exts nv s g a,
  acyclic (ch_types c) ->
  ch_call c = inl call_ty -> ch_extensions c = inl exts -> usual_extensions (ch_types c) exts ->
  ch_spec c = inl nv -> printed_spec_version nv = dec_string (sg_version s) ->
  proper s -> g = None \/ g = Some (sg_genesis s) ->
  possible (ch_types c) call_ty a -> (N.of_nat (List.length (action_bytes a)) < 2 ^ 32)%N ->
  exists call xs,
    transaction c g (payload (action_bytes a) (all_extension_bytes s exts)) = Ok (TransactionParsed (inl call) xs) /\
    transaction_unmarked c g (action_bytes a ++ all_extension_bytes s exts) = Ok (call, xs) /\
    forall b58 icon specs chain_name bits,
      map (show bits) (card_call b58 icon specs chain_name call 0) = action_lines b58 specs a /\
      map (show bits) (card_extensions b58 icon specs chain_name xs) = all_extension_lines specs chain_name s exts.
Proof.
  intros ME c call_ty exts nv s g a Ha Hc He Hu Hs Hv Hp Hg Hpo Hl.
  destruct (made_action _ _ a Hpo) as (v & p & (info & En & Vi) & _ & L).
  destruct (c79_call ME c call_ty exts nv s g v _ p info Ha Hc He Hu Hs Hv Hp Hg En (Vi false) Hl) as (xs & T1 & T2 & T3).
  exists p, xs. split; [exact T1|]. split; [exact T2|]. intros b58 icon specs cn bits. split; [apply L|apply T3].
Qed.
Print Assumptions c79_batch.

(** Conversely: whatever is shown in these lines is this batch, byte by byte. *)
Theorem c79_only_batch : forall ME (c : chain ME) call_ty exts nv s g a,
  acyclic (ch_types c) -> told_apart (ch_types c) ->
  ch_call c = inl call_ty -> ch_extensions c = inl exts -> usual_extensions (ch_types c) exts ->
  ch_spec c = inl nv -> printed_spec_version nv = dec_string (sg_version s) ->
  proper s -> g = None \/ g = Some (sg_genesis s) ->
  possible (ch_types c) call_ty a -> (N.of_nat (List.length (action_bytes a)) < 2 ^ 32)%N ->
  forall b58 icon specs chain_name bits data call xs,
  base58_faithful b58 -> bits_faithful bits -> (decimals specs < 256)%N -> is_bytes data ->
  transaction c g data = Ok (TransactionParsed (inl call) xs) ->
  map (show bits) (card_call b58 icon specs chain_name call 0) = action_lines b58 specs a ->
  map (show bits) (card_extensions b58 icon specs chain_name xs) = all_extension_lines specs chain_name s exts ->
  data = payload (action_bytes a) (all_extension_bytes s exts).
Proof.
  intros ME c call_ty exts nv s g a Ha Hap Hc He Hu Hs Hv Hp Hg Hpo Hl b58 icon specs cn bits data call xs F1 F2 Hd Hdata Htr E1 E2.
  destruct (made_action _ _ a Hpo) as (v & p & (info & En & Vi) & N1 & L).
  destruct (call_accepted c call_ty exts nv Ha Hc He Hu Hs s g (action_bytes a) (Ext (DCall p) info) p Hv Hp) as (xs' & N2 & B & T & _ & L2);
    [destruct Hg as [-> | ->]; [exact I|reflexivity]|exists v; split; [exact En|exact (Vi false)]|reflexivity|apply u32, Hl|].
  symmetry. apply (PropSee.c48_transaction b58 icon specs cn bits ME c g g _ data p call xs' xs F1 F2 Hd Hap B Hdata T Htr N1 N2).
  rewrite !map_app, E1, E2, L, L2. reflexivity.
Qed.
Print Assumptions c79_only_batch.

(** The lines are those of one action only. *)
Theorem c79_lines_tell : forall types call_ty b58 specs a1 a2, acyclic types -> told_apart types ->
  base58_faithful b58 -> (decimals specs < 256)%N -> possible types call_ty a1 -> possible types call_ty a2 ->
  action_lines b58 specs a1 = action_lines b58 specs a2 -> a1 = a2.
Proof.
  intros types call_ty b58 specs a1 a2 Ha Hap F1 Hd H1 H2 E.
  destruct (made_action _ _ a1 H1) as (v1 & p1 & (i1 & E1 & V1) & N1 & L1). destruct (made_action _ _ a2 H2) as (v2 & p2 & (i2 & E2 & V2) & N2 & L2).
  assert (F2 : bits_faithful Address.bits_text) by apply PropAddress.c67_formats.
  assert (W : forall v bs p i, enc types false call_ty v = Some bs -> view types false HNone call_ty v = Some (DCall p, i) ->
    decode_all types bs call_ty = Ok (Ext (DCall p) i)).
  { intros v bs p i X Y. apply ProofStorage.encodes_whole; [exact Ha|]. exists v. split; assumption. }
  apply (action_told types call_ty a1 a2 [] []); [exact H1|exact H2|]. rewrite !app_nil_r.
  apply (PropSee.c47_blob b58 (fun _ => []) specs "" Address.bits_text types _ _ call_ty (Ext (DCall p1) i1) (Ext (DCall p2) i2) 0%nat true F1 F2 Hd Hap).
  - exact (enc_bytes _ _ _ _ _ E1).
  - exact (enc_bytes _ _ _ _ _ E2).
  - exact (W _ _ _ _ E1 (V1 false)).
  - exact (W _ _ _ _ E2 (V2 false)).
  - exact N1.
  - change (card_ext b58 (fun _ => []) specs "" (Ext (DCall p1) i1) 0 true) with (card_call b58 (fun _ => []) specs "" p1 0).
    change (card_ext b58 (fun _ => []) specs "" (Ext (DCall p2) i2) 0 true) with (card_call b58 (fun _ => []) specs "" p2 0).
    rewrite L1, L2. exact E.
Qed.
Print Assumptions c79_lines_tell.
