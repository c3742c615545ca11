(** C76: a transfer on a usual chain is accepted and shown as such: the recipient and the exact
    amount, nothing else; and the extensions as signed. *)
From Coq Require Import Lia.
From Verif Require Import Base Compact Types Indicators Decode Sign Balance Cards Spec SpecSign SpecCards SpecSee SpecTransfer Api ApiSign
  ProofBase ProofCompact ProofLeaf ProofWf ProofCor ProofSign2 ProofTransfer.
From Verif Require PropSign PropSee.
Local Open Scope string_scope.
Local Open Scope list_scope.

Lemma small_fits n m : (n <= m)%nat -> fits U32 (N.of_nat m) = true -> fits U32 (N.of_nat n) = true.
Proof. unfold fits. rewrite !N.ltb_lt. intros H1 H2. eapply N.le_lt_trans; [|exact H2]. lia. Qed.

Lemma transfer_shown b58 icon specs name0 bits info docs name d v vdocs f dest amount :
  fd_name d = Some "dest" -> x_data (fd_data d) = DVariant (VData "Id" vdocs [f]) ->
  fd_name f = None -> x_data (fd_data f) = DFixed KAccountId32 dest ->
  fd_name v = Some "value" -> x_data (fd_data v) = DUInt U128 amount SuBalance ->
  map (show bits) (card_call b58 icon specs name0 (PSData info docs "Balances" name [d; v]) 0) = transfer_lines b58 specs name dest amount.
Proof.
  intros Hd Xd Hf Xf Hv Xv. unfold card_call, card_pallet_specific. cbn [ps_fields card_variant_fields card_field_set].
  unfold card_ext_with. rewrite Hd, Hv, Xd, Xv. cbn [card vd_fields vd_name vd_docs card_variant_fields]. rewrite Hf.
  unfold card_unnamed_single_field. rewrite Xf. reflexivity.
Qed.

Section Transfer.
Context {ME : Type}.
Variable c : chain ME.
Variables (call_ty i j : N) (name : string) (exts : list ext_meta) (nv : spec_name_version).
Hypothesis acyc : acyclic (ch_types c).
Hypothesis is_call : ch_call c = inl call_ty.
Hypothesis is_transfer : transfer_call (ch_types c) call_ty i j name.
Hypothesis is_exts : ch_extensions c = inl exts.
Hypothesis usual : usual_extensions (ch_types c) exts.
Hypothesis is_spec : ch_spec c = inl nv.
Hypothesis byte_i : (i < 256)%N.
Hypothesis byte_j : (j < 256)%N.

Lemma transfer_accepted s g dest amount : printed_spec_version nv = dec_string (sg_version s) -> proper s ->
  genesis_matches g (sg_genesis s) -> is_bytes dest -> List.length dest = 32%nat -> fits U128 amount = true ->
  exists call xs,
    nothing_hidden (DCall call) /\ Forall (fun x => nothing_hidden (x_data x)) xs /\
    is_bytes (payload (transfer_bytes i j dest amount) (all_extension_bytes s exts)) /\
    transaction c g (payload (transfer_bytes i j dest amount) (all_extension_bytes s exts)) = Ok (TransactionParsed (inl call) xs) /\
    transaction_unmarked c g (transfer_bytes i j dest amount ++ all_extension_bytes s exts) = Ok (call, xs) /\
    forall b58 icon specs chain_name bits,
      map (show bits) (card_call b58 icon specs chain_name call 0) = transfer_lines b58 specs name dest amount /\
      map (show bits) (card_extensions b58 icon specs chain_name xs) = all_extension_lines specs chain_name s exts.
Proof.
  intros Hp Hok Hg Hb H32 Ha.
  destruct (made_transfer _ call_ty i j name dest amount is_transfer byte_i byte_j Hb H32 Ha)
    as (x & info & docs & d & vdocs & f & v & (val & He & Hv) & Hx & N1 & X1 & N2 & X2 & N3 & X3).
  set (call := transfer_bytes i j dest amount) in *.
  assert (Hcb : is_bytes call) by exact (enc_bytes _ _ _ _ _ He).
  assert (Hlen : fits U32 (N.of_nat (List.length call)) = true).
  { unfold call, transfer_bytes. cbn [List.length]. rewrite app_length, H32. 
    pose proof (ProofCompact.compact_enc_length U128 amount Ha) as L. apply (small_fits _ 100); [lia|reflexivity]. }
  set (head := compact_enc (N.of_nat (List.length call))).
  assert (Hhb : is_bytes head) by (apply (compact_enc_fits_is_bytes U32), Hlen).
  destruct (usual_accepted ME c s exts nv g head call acyc is_exts usual is_spec Hp Hok Hg) as (xs & Hxs & Heb & Hh & Hlines).
  { unfold is_bytes in *. apply Forall_app. split; assumption. }
  exists (PSData info docs "Balances" name [d; v]), xs.
  assert (Ht : transaction c g (payload call (all_extension_bytes s exts)) = Ok (TransactionParsed (inl (PSData info docs "Balances" name [d; v])) xs)).
  { unfold payload. fold head. rewrite transaction_eq.
    assert (Hce : is_bytes (call ++ all_extension_bytes s exts)) by (unfold is_bytes in *; apply Forall_app; split; assumption).
    unfold head. rewrite (mark_of (ME := ME) call _ Hlen Hce). cbv zeta. fold head. rewrite Hxs.
    pose proof (call_answer c (head ++ call ++ all_extension_bytes s exts) (Marked (List.length head) (List.length (head ++ call)))) as Hca.
    cbn [call_start extensions_start] in Hca. specialize (Hca ltac:(rewrite !app_length; lia)).
    assert (Hco : call_outcome c (head ++ call ++ all_extension_bytes s exts) (List.length head) (List.length (head ++ call))
      (Ok (PSData info docs "Balances" name [d; v]))).
    { apply (CO_call c _ _ _ call_ty x); [exact is_call| |exact Hx].
      rewrite app_assoc, firstn_app, Nat.sub_diag, firstn_O, app_nil_r, firstn_all.
      pose proof (hinted_trip _ acyc HNone call_ty val call x head []) as T. rewrite !app_nil_r in T.
      rewrite decode_at_hinted, app_length. apply T; assumption. }
    rewrite (call_outcome_unique c _ _ _ _ _ Hca Hco). reflexivity. }
  split; [|split; [exact Hh|split; [|split; [exact Ht|split] ] ] ].
  - unfold nothing_hidden. cbn [everywhere ps_fields]. rewrite X1, X3. cbn [everywhere vd_fields]. rewrite X2. repeat split.
  - unfold payload. fold head. unfold is_bytes in *. rewrite !Forall_app. repeat split; assumption.
  - unfold payload in Ht. apply (PropSign.c25_marked_unmarked ME c g call (all_extension_bytes s exts)) in Ht; [exact (proj1 Ht)|exact Hlen|].
    unfold is_bytes in *. apply Forall_app. split; assumption.
  - intros b58 icon specs cn bits. split; [|apply Hlines]. eapply transfer_shown; eassumption.
Qed.
End Transfer.

(** ** The theorems *)

(** Accepted and shown as such, with and without the length prefix. *)
Theorem c76_transfer : forall ME (c : chain ME) call_ty i j name exts nv s g dest amount,
  acyclic (ch_types c) ->
  ch_call c = inl call_ty -> transfer_call (ch_types c) call_ty i j name -> (i < 256)%N -> (j < 256)%N ->
  ch_extensions c = inl exts -> usual_extensions (ch_types c) exts ->
  ch_spec c = inl nv -> printed_spec_version nv = dec_string (sg_version s) ->
  proper s -> g = None \/ g = Some (sg_genesis s) ->
  is_bytes dest -> List.length dest = 32%nat -> (amount < 2 ^ 128)%N ->
  exists call xs,
    transaction c g (payload (transfer_bytes i j dest amount) (all_extension_bytes s exts)) = Ok (TransactionParsed (inl call) xs) /\
    transaction_unmarked c g (transfer_bytes i j dest amount ++ all_extension_bytes s exts) = Ok (call, xs) /\
    forall b58 icon specs chain_name bits,
      map (show bits) (card_call b58 icon specs chain_name call 0) = transfer_lines b58 specs name dest amount /\
      map (show bits) (card_extensions b58 icon specs chain_name xs) = all_extension_lines specs chain_name s exts.
Proof.
  intros ME c call_ty i j name exts nv s g dest amount Ha Hc Ht Hi Hj He Hu Hs Hv Hp Hg Hb H32 Hf.
  destruct (transfer_accepted c call_ty i j name exts nv Ha Hc Ht He Hu Hs Hi Hj s g dest amount Hv Hp)
    as (call & xs & _ & _ & _ & H); [destruct Hg as [-> | ->]; [exact I|reflexivity]|exact Hb|exact H32|apply N.ltb_lt; exact Hf|].
  exists call, xs. exact H.
Qed.
Print Assumptions c76_transfer.

(** Conversely: whatever is shown in these lines is this transfer, byte by byte. *)
Theorem c76_only_transfer : forall ME (c : chain ME) call_ty i j name exts nv s g dest amount,
  acyclic (ch_types c) ->
  ch_call c = inl call_ty -> transfer_call (ch_types c) call_ty i j name -> (i < 256)%N -> (j < 256)%N ->
  ch_extensions c = inl exts -> usual_extensions (ch_types c) exts ->
  ch_spec c = inl nv -> printed_spec_version nv = dec_string (sg_version s) ->
  proper s -> g = None \/ g = Some (sg_genesis s) ->
  is_bytes dest -> List.length dest = 32%nat -> (amount < 2 ^ 128)%N ->
  told_apart (ch_types c) ->
  forall b58 icon specs chain_name bits data call xs,
  base58_faithful b58 -> bits_faithful bits -> (decimals specs < 256)%N -> is_bytes data ->
  transaction c g data = Ok (TransactionParsed (inl call) xs) ->
  map (show bits) (card_call b58 icon specs chain_name call 0) = transfer_lines b58 specs name dest amount ->
  map (show bits) (card_extensions b58 icon specs chain_name xs) = all_extension_lines specs chain_name s exts ->
  data = payload (transfer_bytes i j dest amount) (all_extension_bytes s exts).
Proof.
  intros ME c call_ty i j name exts nv s g dest amount Ha Hc Ht Hi Hj He Hu Hs Hv Hp Hg Hb H32 Hf Hap b58 icon specs cn bits data call xs
    F1 F2 Hd Hdata Htr E1 E2.
  destruct (transfer_accepted c call_ty i j name exts nv Ha Hc Ht He Hu Hs Hi Hj s g dest amount Hv Hp)
    as (call' & xs' & N1 & N2 & B & T & _ & L); [destruct Hg as [-> | ->]; [exact I|reflexivity]|exact Hb|exact H32|apply N.ltb_lt; exact Hf|].
  destruct (L b58 icon specs cn bits) as (L1 & L2). symmetry.
  apply (PropSee.c48_transaction b58 icon specs cn bits ME c g g _ data call' call xs' xs F1 F2 Hd Hap B Hdata T Htr N1 N2).
  rewrite !map_app, E1, E2, L1, L2. reflexivity.
Qed.
Print Assumptions c76_only_transfer.

(** ** Real chains *)

Definition ordinaryb (types : list ty) (id : N) (p : typedef -> bool) : bool :=
  match lookup types id with
  | Some t => match classify t with SpPlain => p (t_def t) | _ => false end
  | None => false
  end.
Definition raw_account (s : special) : bool := match s with SpRaw KAccountId32 => true | _ => false end.
Definition is_hash (s : special) : bool := match s with SpHash => true | _ => false end.
Definition is_era (s : special) : bool := match s with SpEra => true | _ => false end.
Definition is_call_item (s : special) : bool := match s with SpItem ItCall => true | _ => false end.
Definition recognisedb (types : list ty) (id : N) (p : special -> bool) : bool :=
  match lookup types id with Some t => p (classify t) | None => false end.
Definition width_eqb (a b : uwidth) : bool := Nat.eqb (usize a) (usize b).
Definition compactb (types : list ty) (w : uwidth) (id : N) : bool :=
  ordinaryb types id (fun d => match d with
    | TCompact j => ordinaryb types j (fun d => match d with TPrimitive (PrU w') => width_eqb w' w | _ => false end)
    | _ => false end).
Definition noname (f : field) : bool := match f_name f with None => true | Some _ => false end.
Definition wrappedb (types : list ty) (p : N -> bool) (id : N) : bool :=
  p id || ordinaryb types id (fun d => match d with TComposite [f] => noname f && p (f_ty f) | _ => false end).
Definition emptyb (types : list ty) (id : N) : bool :=
  ordinaryb types id (fun d => match d with TTuple [] | TComposite [] => true | _ => false end).
Definition addressb (types : list ty) (id : N) : bool :=
  ordinaryb types id (fun d => match d with
    | TVariant l => match by_index l 0 with
        | Some v => String.eqb (v_name v) "Id" && match v_fields v with [f] => noname f && recognisedb types (f_ty f) raw_account | _ => false end
        | None => false end
    | _ => false end).
Definition named (f : field) (s : string) : bool := match f_name f with Some n => String.eqb n s | None => false end.
Definition is_balance (h : hint) : bool := match h with HFieldBalance => true | _ => false end.
Definition transferb (types : list ty) (call_ty i j : N) (name : string) : bool :=
  match lookup types call_ty with
  | Some t => is_call_item (classify t) &&
      match t_def t with
      | TVariant pallets =>
          match by_index pallets i with
          | Some pallet => String.eqb (v_name pallet) "Balances" &&
              match v_fields pallet with
              | [f] =>
                  match lookup types (f_ty f) with
                  | Some inner => is_call_item (classify inner) &&
                      match t_def inner with
                      | TVariant calls =>
                          match by_index calls j with
                          | Some call => String.eqb (v_name call) name &&
                              match v_fields call with
                              | [dest; value] => named dest "dest" && named value "value" && is_balance (field_label value) &&
                                  addressb types (f_ty dest) && compactb types U128 (f_ty value)
                              | _ => false
                              end
                          | None => false
                          end
                      | _ => false
                      end
                  | None => false
                  end
              | _ => false
              end
          | None => false
          end
      | _ => false
      end
  | None => false
  end.
Definition plain_u32 (types : list ty) (id : N) : bool :=
  ordinaryb types id (fun d => match d with TPrimitive (PrU U32) => true | _ => false end).
Definition asset_tipb (types : list ty) (id : N) : bool :=
  ordinaryb types id (fun d => match d with
    | TComposite [tip; asset] => named tip "tip" && compactb types U128 (f_ty tip) && named asset "asset_id" &&
        ordinaryb types (f_ty asset) (fun d => match d with
          | TVariant l => match by_index l 0 with
              | Some v => String.eqb (v_name v) "None" && match v_fields v with [] => true | _ => false end
              | None => false end
          | _ => false end)
    | _ => false end).
Definition variantb (l : list variant) (n : N) (name : string) : option (list field) :=
  match by_index l n with
  | Some v => if String.eqb (v_name v) name then Some (v_fields v) else None
  | None => None
  end.
Definition hash_modeb (types : list ty) (id : N) : bool :=
  ordinaryb types id (fun d => match d with
    | TComposite [f] => named f "mode" && ordinaryb types (f_ty f) (fun d => match d with
        | TVariant l => match variantb l 0 "Disabled", variantb l 1 "Enabled" with Some [], Some [] => true | _, _ => false end
        | _ => false end)
    | _ => false end).
Definition hash_additionb (types : list ty) (id : N) : bool :=
  ordinaryb types id (fun d => match d with
    | TVariant l => match variantb l 0 "None", variantb l 1 "Some" with
        | Some [], Some [f] => noname f && ordinaryb types (f_ty f) (fun d => match d with
            | TArray n el => (n =? 32)%N && ordinaryb types el (fun d => match d with TPrimitive (PrU w) => width_eqb U8 w | _ => false end)
            | _ => false end)
        | _, _ => false end
    | _ => false end).
Definition extensionb (types : list ty) (m : ext_meta) : bool :=
  let i := em_identifier m in let e := em_ty m in let a := em_additional m in
  if String.eqb i "CheckSpecVersion" then emptyb types e && plain_u32 types a
  else if String.eqb i "CheckTxVersion" then emptyb types e && plain_u32 types a
  else if String.eqb i "CheckGenesis" then emptyb types e && recognisedb types a is_hash
  else if String.eqb i "CheckMortality" then wrappedb types (fun id => recognisedb types id is_era) e && recognisedb types a is_hash
  else if String.eqb i "CheckNonce" then wrappedb types (compactb types U32) e && emptyb types a
  else if String.eqb i "ChargeTransactionPayment" then wrappedb types (compactb types U128) e && emptyb types a
  else if String.eqb i "ChargeAssetTxPayment" then asset_tipb types e && emptyb types a
  else if String.eqb i "CheckMetadataHash" then hash_modeb types e && hash_additionb types a
  else emptyb types e && emptyb types a.
Fixpoint nodupb (l : list string) : bool :=
  match l with [] => true | x :: r => negb (existsb (String.eqb x) r) && nodupb r end.
Definition extensionsb (types : list ty) (l : list ext_meta) : bool :=
  forallb (extensionb types) l && nodupb (map em_identifier l) &&
  existsb (String.eqb "CheckSpecVersion") (map em_identifier l) && existsb (String.eqb "CheckGenesis") (map em_identifier l).

Section Checks.
Variable types : list ty.
Lemma ordinaryb_ok id p : ordinaryb types id p = true -> exists d, ordinary types id d /\ p d = true.
Proof.
  unfold ordinaryb, ordinary. destruct (lookup types id) as [t|]; [|discriminate]. destruct (classify t) eqn:E; try discriminate.
  intros H. exists (t_def t). split; [exists t; auto|exact H].
Qed.
Lemma recognisedb_ok id p s : (forall x, p x = true -> x = s) -> recognisedb types id p = true -> recognised types id s.
Proof. unfold recognisedb, recognised. intros Hp. destruct (lookup types id) as [t|]; [|discriminate]. intros H. exists t. split; [reflexivity|exact (Hp _ H)]. Qed.
Lemma hash_ok x : is_hash x = true -> x = SpHash. Proof. destruct x; try discriminate. reflexivity. Qed.
Lemma era_ok x : is_era x = true -> x = SpEra. Proof. destruct x; try discriminate. reflexivity. Qed.
Lemma account_ok x : raw_account x = true -> x = SpRaw KAccountId32.
Proof. destruct x as [|k| | | | |]; try discriminate; destruct k; try discriminate; reflexivity. Qed.
Lemma item_ok x : is_call_item x = true -> x = SpItem ItCall.
Proof. destruct x as [| | | | | |k]; try discriminate; destruct k; try discriminate; reflexivity. Qed.
Lemma width_ok a b : width_eqb a b = true -> a = b.
Proof. destruct a, b; try discriminate; reflexivity. Qed.
Lemma compactb_ok w id : compactb types w id = true -> compact_number types w id.
Proof.
  intros H. apply ordinaryb_ok in H. destruct H as (d & Ho & H). destruct d; try discriminate. apply ordinaryb_ok in H.
  destruct H as (d & Ho' & H). destruct d as [| | | | |p| |]; try discriminate. destruct p as [| | |w'| | |]; try discriminate.
  apply width_ok in H. subst w'. eexists. split; eassumption.
Qed.
Lemma noname_ok f : noname f = true -> f_name f = None.
Proof. unfold noname. destruct (f_name f); [discriminate|reflexivity]. Qed.
Lemma named_ok f s : named f s = true -> f_name f = Some s.
Proof. unfold named. destruct (f_name f) as [n|]; [|discriminate]. intros H. apply String.eqb_eq in H. congruence. Qed.
Lemma wrappedb_ok p (P : N -> Prop) id : (forall j, p j = true -> P j) -> wrappedb types p id = true -> perhaps_wrapped types P id.
Proof.
  intros Hp H. apply orb_prop in H. destruct H as [H|H]; [left; exact (Hp _ H)|right].
  apply ordinaryb_ok in H. destruct H as (d & Ho & H). destruct d as [l| | | | | | |]; try discriminate.
  destruct l as [|f [|g l] ]; try discriminate. apply andb_prop in H. destruct H as [H1 H2].
  exists f. split; [exact Ho|]. split; [exact (noname_ok _ H1)|exact (Hp _ H2)].
Qed.
Lemma emptyb_ok id : emptyb types id = true -> takes_no_bytes types id.
Proof.
  intros H. apply ordinaryb_ok in H. destruct H as (d & Ho & H). destruct d as [l| | | |l| | |]; try discriminate; destruct l; try discriminate.
  - right. exact Ho.
  - left. exact Ho.
Qed.
Lemma addressb_ok id : addressb types id = true -> address_type types id.
Proof.
  intros H. apply ordinaryb_ok in H. destruct H as (d & Ho & H). destruct d as [|l| | | | | |]; try discriminate.
  destruct (by_index l 0) as [v|] eqn:Ei; [|discriminate]. apply andb_prop in H. destruct H as [H1 H2]. apply String.eqb_eq in H1.
  destruct (v_fields v) as [|f [|g r] ] eqn:Ef; try discriminate. apply andb_prop in H2. destruct H2 as [H2 H3].
  exists l, v, f. repeat split; auto; [exact (noname_ok _ H2)|exact (recognisedb_ok _ _ _ account_ok H3)].
Qed.
Lemma transferb_ok call_ty i j name : transferb types call_ty i j name = true -> transfer_call types call_ty i j name.
Proof.
  unfold transferb. intros H. destruct (lookup types call_ty) as [t|] eqn:E1; [|discriminate]. apply andb_prop in H. destruct H as [H1 H].
  apply item_ok in H1. destruct (t_def t) as [|pallets| | | | | |] eqn:E2; try discriminate.
  destruct (by_index pallets i) as [pallet|] eqn:E3; [|discriminate]. apply andb_prop in H. destruct H as [H2 H]. apply String.eqb_eq in H2.
  destruct (v_fields pallet) as [|f [|g r] ] eqn:E4; try discriminate. destruct (lookup types (f_ty f)) as [inner|] eqn:E5; [|discriminate].
  apply andb_prop in H. destruct H as [H3 H]. apply item_ok in H3. destruct (t_def inner) as [|calls| | | | | |] eqn:E6; try discriminate.
  destruct (by_index calls j) as [call|] eqn:E7; [|discriminate]. apply andb_prop in H. destruct H as [H4 H]. apply String.eqb_eq in H4.
  destruct (v_fields call) as [|dest [|value [|g r] ] ] eqn:E8; try discriminate.
  apply andb_prop in H. destruct H as [H H9]. apply andb_prop in H. destruct H as [H H8]. apply andb_prop in H. destruct H as [H H7].
  apply andb_prop in H. destruct H as [H5 H6]. apply named_ok in H5, H6. apply addressb_ok in H8. apply compactb_ok in H9.
  exists t, pallets, pallet, f, inner, calls, call, dest, value. repeat split; auto. destruct (field_label value); try discriminate H7. reflexivity.
Qed.
Lemma plain_u32_ok id : plain_u32 types id = true -> ordinary types id (TPrimitive (PrU U32)).
Proof.
  intros H. apply ordinaryb_ok in H. destruct H as (d & Ho & H). destruct d as [| | | | |p| |]; try discriminate.
  destruct p as [| | |w| | |]; try discriminate. destruct w; try discriminate. exact Ho.
Qed.
Lemma asset_tipb_ok id : asset_tipb types id = true -> asset_tip types id.
Proof.
  intros H. apply ordinaryb_ok in H. destruct H as (d & Ho & H). destruct d as [l| | | | | | |]; try discriminate.
  destruct l as [|tip [|asset [|x l] ] ]; try discriminate. apply andb_prop in H. destruct H as [H H4]. apply andb_prop in H. destruct H as [H H3].
  apply andb_prop in H. destruct H as [H1 H2]. apply named_ok in H1, H3. apply compactb_ok in H2. apply ordinaryb_ok in H4.
  destruct H4 as (d & Ho' & H4). destruct d as [|l| | | | | |]; try discriminate. destruct (by_index l 0) as [v|] eqn:Ei; [|discriminate].
  apply andb_prop in H4. destruct H4 as [H4 H5]. apply String.eqb_eq in H4. destruct (v_fields v) eqn:Ef; [|discriminate].
  exists tip, asset, l, v. auto 10.
Qed.
Lemma variantb_ok l n name fs : variantb l n name = Some fs -> has_variant l n name fs.
Proof.
  unfold variantb, has_variant. destruct (by_index l n) as [v|]; [|discriminate]. destruct (String.eqb_spec (v_name v) name) as [E|]; [|discriminate].
  intros H. injection H as <-. exists v. auto.
Qed.
Lemma hash_modeb_ok id : hash_modeb types id = true -> hash_mode types id.
Proof.
  intros H. apply ordinaryb_ok in H. destruct H as (d & Ho & H). destruct d as [fs| | | | | | |]; try discriminate. destruct fs as [|f [|? ?] ]; try discriminate.
  apply andb_prop in H. destruct H as [H1 H2]. apply ordinaryb_ok in H2. destruct H2 as (d & Ho' & H2). destruct d as [|l| | | | | |]; try discriminate.
  destruct (variantb l 0 "Disabled") as [ [|? ?] |] eqn:E0; try discriminate. destruct (variantb l 1 "Enabled") as [ [|? ?] |] eqn:E1; try discriminate.
  exists f, l. exact (conj Ho (conj (named_ok _ _ H1) (conj Ho' (conj (variantb_ok _ _ _ _ E0) (variantb_ok _ _ _ _ E1))))).
Qed.
Lemma hash_additionb_ok id : hash_additionb types id = true -> hash_addition types id.
Proof.
  intros H. apply ordinaryb_ok in H. destruct H as (d & Ho & H). destruct d as [|l| | | | | |]; try discriminate.
  destruct (variantb l 0 "None") as [ [|? ?] |] eqn:E0; try discriminate. destruct (variantb l 1 "Some") as [ [|f [|? ?] ] |] eqn:E1; try discriminate.
  apply andb_prop in H. destruct H as [H1 H2]. apply ordinaryb_ok in H2. destruct H2 as (d & Ho' & H2). destruct d as [| | |n el| | | |]; try discriminate.
  apply andb_prop in H2. destruct H2 as [H2 H3]. apply N.eqb_eq in H2. rewrite H2 in Ho'.
  apply ordinaryb_ok in H3. destruct H3 as (d & Ho2 & H3). destruct d as [| | | | |p| |]; try discriminate. destruct p as [| | |w| | |]; try discriminate.
  apply width_ok in H3. rewrite <- H3 in Ho2.
  exists l, f, el. exact (conj Ho (conj (variantb_ok _ _ _ _ E0) (conj (variantb_ok _ _ _ _ E1) (conj (noname_ok _ H1) (conj Ho' Ho2))))).
Qed.
Lemma extensionb_ok m : extensionb types m = true -> usual_extension types m.
Proof.
  destruct m as [i e a]. unfold extensionb. cbn [em_identifier em_ty em_additional].
  destruct (String.eqb_spec i "CheckSpecVersion") as [-> |N1].
  { intros H. apply andb_prop in H. destruct H as [H1 H2]. apply UE_spec_version; [exact (emptyb_ok _ H1)|exact (plain_u32_ok _ H2)]. }
  destruct (String.eqb_spec i "CheckTxVersion") as [-> |N2].
  { intros H. apply andb_prop in H. destruct H as [H1 H2]. apply UE_tx_version; [exact (emptyb_ok _ H1)|exact (plain_u32_ok _ H2)]. }
  destruct (String.eqb_spec i "CheckGenesis") as [-> |N3].
  { intros H. apply andb_prop in H. destruct H as [H1 H2]. apply UE_genesis; [exact (emptyb_ok _ H1)|exact (recognisedb_ok _ _ _ hash_ok H2)]. }
  destruct (String.eqb_spec i "CheckMortality") as [-> |N4].
  { intros H. apply andb_prop in H. destruct H as [H1 H2]. apply UE_mortality; [|exact (recognisedb_ok _ _ _ hash_ok H2)].
    apply (wrappedb_ok _ _ _ (fun j => recognisedb_ok j _ _ era_ok) H1). }
  destruct (String.eqb_spec i "CheckNonce") as [-> |N5].
  { intros H. apply andb_prop in H. destruct H as [H1 H2]. apply UE_nonce; [|exact (emptyb_ok _ H2)]. apply (wrappedb_ok _ _ _ (compactb_ok U32) H1). }
  destruct (String.eqb_spec i "ChargeTransactionPayment") as [-> |N6].
  { intros H. apply andb_prop in H. destruct H as [H1 H2]. apply UE_tip; [|exact (emptyb_ok _ H2)]. apply (wrappedb_ok _ _ _ (compactb_ok U128) H1). }
  destruct (String.eqb_spec i "ChargeAssetTxPayment") as [-> |N7].
  { intros H. apply andb_prop in H. destruct H as [H1 H2]. apply UE_asset_tip; [exact (asset_tipb_ok _ H1)|exact (emptyb_ok _ H2)]. }
  destruct (String.eqb_spec i "CheckMetadataHash") as [-> |N8].
  { intros H. apply andb_prop in H. destruct H as [H1 H2]. apply UE_metadata_hash; [exact (hash_modeb_ok _ H1)|exact (hash_additionb_ok _ H2)]. }
  intros H. apply andb_prop in H. destruct H as [H1 H2]. apply UE_other; [|exact (emptyb_ok _ H1)|exact (emptyb_ok _ H2)].
  unfold known_extensions. cbn [In]. intuition congruence.
Qed.
Lemma nodupb_ok l : nodupb l = true -> NoDup l.
Proof.
  induction l as [|x l IH]; cbn [nodupb]; [constructor|]. intros H. apply andb_prop in H. destruct H as [H1 H2]. constructor; [|exact (IH H2)].
  intros Hin. apply Bool.negb_true_iff in H1. assert (T : existsb (String.eqb x) l = true).
  { apply existsb_exists. exists x. split; [exact Hin|apply String.eqb_refl]. } congruence.
Qed.
Lemma existsb_in k l : existsb (String.eqb k) l = true -> In k l.
Proof. intros H. apply existsb_exists in H. destruct H as (x & Hx & E). apply String.eqb_eq in E. congruence. Qed.
Lemma extensionsb_ok l : extensionsb types l = true -> usual_extensions types l.
Proof.
  unfold extensionsb. intros H. apply andb_prop in H. destruct H as [H H4]. apply andb_prop in H. destruct H as [H H3].
  apply andb_prop in H. destruct H as [H1 H2]. split; [|split; [exact (nodupb_ok _ H2)|split; apply existsb_in; assumption] ].
  rewrite forallb_forall in H1. apply Forall_forall. intros m Hm. exact (extensionb_ok m (H1 m Hm)).
Qed.
End Checks.
