(** C80: extrinsics that are not signed, as the one that sets the time of a block, are shown with
    exactly their call, and only they are. *)
From Coq Require Import Lia.
From Verif Require Import Base Compact Types Indicators Decode Sign Unchecked Balance Cards Spec SpecSign SpecCards SpecSee SpecTransfer SpecIncluded SpecClock
  SpecUnchecked Api ApiSign ProofBase ProofCompact ProofLeaf ProofWf ProofCor ProofSign2 ProofTransfer ProofIncluded ProofUnchecked PropTransfer PropInclude PropIncluded.
From Verif Require PropSign PropSee PropUnchecked PropBatch.
Local Open Scope string_scope.
Local Open Scope list_scope.

Lemma u64 n : (n < 2 ^ 64)%N -> fits U64 n = true. Proof. apply N.ltb_lt. Qed.

(** Any call of an extrinsic that is not signed: an extrinsic printed like this call has exactly its
    bytes; only after the call may more bytes follow, within the announced length. *)
Theorem c80_lines : forall base58 identicon specs name bits ME (c : chain ME) p v call d data d',
  base58_faithful base58 -> bits_faithful bits -> (decimals specs < 256)%N -> told_apart (ch_types c) ->
  is_bytes data -> is_bytes call ->
  ch_params c = inl p -> ch_call c = inl (ep_call p) -> ch_version c = inl v ->
  PropInclude.is_call c call d -> nothing_hidden (DCall d) ->
  unchecked_extrinsic c data = Ok (UxUnsigned d') ->
  map (show bits) (card_call base58 identicon specs name d' 0) = map (show bits) (card_call base58 identicon specs name d 0) ->
  exists following, data = inherent v (call ++ following).
Proof.
  intros base58 icon specs name bits ME c p v bc d data d' F1 F2 Hd Ha B2 Bc P1 PC V1 (id & xc & Hid & DC & X1) Hh U2 HL.
  assert (Eid : id = ep_call p) by congruence. subst id. clear Hid PC.
  apply parsed_turn in U2; [|exact B2]. destruct U2 as (p' & b2 & r2 & v' & xs2 & e2 & P2 & G2 & V2 & M2 & T2 & S2).
  assert (Ep : p' = p) by congruence. assert (Ev : v' = v) by congruence. rewrite Ep in *. rewrite Ev in *. clear P2 V2 Ep Ev.
  pose proof (framed_rest _ _ _ G2) as R2. assert (L2 : (List.length data - List.length r2 <= List.length data)%nat) by lia.
  remember (List.length data - List.length r2)%nat as q0 eqn:Hq0.
  inversion S2 as [x2 d2 X2|]; subst xs2 d2.
  destruct (128 <=? b2)%N eqn:Q2; [apply turn_length in T2; discriminate T2|].
  cbn [order] in T2. apply turn_cons in T2. destruct T2 as (y1 & q1 & l1 & E1 & C1 & T2). injection E1 as <- <-. apply turn_nil in T2. subst q1.
  apply whole_at in DC. symmetry in HL.
  destruct (PropSee.c47_at base58 icon specs name bits (ch_types c) bc data (ep_call p) 0 q0 xc x2 _ e2 0 true [] [] F1 F2 Hd Ha Bc B2 DC C1) as (E & _ & _).
  { rewrite X1. exact Hh. }
  { rewrite !app_nil_r. unfold card_ext, card_ext_with. rewrite X1, X2. exact HL. }
  rewrite Nat.sub_0_r in E. unfold slice at 1 in E. cbn [skipn] in E. rewrite firstn_all in E.
  destruct (decode_bounds c _ _ _ _ _ L2 C1) as (Z1 & Z2).
  exists (skipn e2 data). destruct G2 as (_ & G2). rewrite (version_byte_low b2 v M2 Q2) in G2.
  assert (R3 : r2 = bc ++ skipn e2 data).
  { rewrite E, <- R2. unfold slice. rewrite <- (firstn_skipn (e2 - q0) (skipn q0 data)) at 1. f_equal. rewrite skipn_skipn. f_equal. lia. }
  rewrite R3 in G2. exact G2.
Qed.
Print Assumptions c80_lines.

(** ** The time *)

Lemma made_clock types call_ty i j now : clock_call types call_ty i j -> (i < 256)%N -> (j < 256)%N -> fits U64 now = true ->
  exists x info docs d, made types HNone call_ty (clock_bytes i j now) x /\
    x_data x = DCall (PSData info docs "Timestamp" "set" [d]) /\
    fd_name d = Some "now" /\ x_data (fd_data d) = DUInt U64 now SuNone.
Proof.
  intros (t & pallets & pallet & f & inner & items & call & fn & Hl & Hc & Hd & Hi & Hpn & Hpf & Hli & Hci & Hdi & Hj & Hcn & Hcf & Hfn & Hlab & Hv) Li Lj Hfit.
  destruct (made_compact types (or_label (pass_label HNone 1) (field_label fn)) (f_ty fn) U64 now Hv Hfit) as (xv & (vv & Ev & Vv) & Xv).
  rewrite Hlab in Xv. cbn [pass_label Nat.leb or_label uint_labels] in Xv.
  exists (Ext (DCall (PSData (Info (docs_text (t_docs inner)) (t_path inner)) (docs_text (v_docs call)) "Timestamp" "set"
      [field_form fn (x_data xv, x_info xv)])) (own_info t)).
  do 2 eexists. exists (field_form fn (x_data xv, x_info xv)).
  split; [|repeat split; [exact Hfn|exact Xv] ].
  exists (VItem i j [vv]).
  assert (Hpi : pallet_items types t pallet = Some (inner, items)).
  { unfold pallet_items. rewrite Hpf, Hli, Hdi, Hc, Hci. reflexivity. }
  split.
  - apply (PropBatch.item_enc _ _ _ _ _ _ _ _ _ _ _ _ Hl Hc Hd Hi Hpi Hj Li Lj). rewrite Hcf. cbn [enc_list]. rewrite Ev, app_nil_r. reflexivity.
  - cbn [view]. rewrite Hl. unfold def_of. rewrite Hc, Hd, Hi, Hpi, Hj, Hcf. cbn [view_list List.length]. rewrite Vv.
    cbn [option_map]. rewrite Hpn, Hcn. reflexivity.
Qed.

Lemma clock_is_call ME (c : chain ME) call_ty i j now : acyclic (ch_types c) -> ch_call c = inl call_ty ->
  clock_call (ch_types c) call_ty i j -> (i < 256)%N -> (j < 256)%N -> (now < 2 ^ 64)%N ->
  exists d, PropInclude.is_call c (clock_bytes i j now) d /\ is_bytes (clock_bytes i j now) /\ nothing_hidden (DCall d) /\
    forall b58 icon specs chain_name bits, map (show bits) (card_call b58 icon specs chain_name d 0) = clock_lines now.
Proof.
  intros Hac Hcall Hk Hi Hj Hn. apply u64 in Hn.
  destruct (made_clock _ _ i j now Hk Hi Hj Hn) as (x & info & docs & d & (v & He & Hv) & Hx & N1 & X1).
  exists (PSData info docs "Timestamp" "set" [d]).
  assert (Hb : is_bytes (clock_bytes i j now)) by exact (enc_bytes _ _ _ _ _ He).
  split; [|split; [exact Hb|split] ].
  - exists call_ty, x. split; [exact Hcall|]. split; [|exact Hx].
    pose proof (hinted_trip _ Hac HNone call_ty v (clock_bytes i j now) x [] []) as T. rewrite !app_nil_r in T.
    specialize (T He Hv). apply whole_at. rewrite decode_at_hinted. apply T. constructor.
  - unfold nothing_hidden. cbn [everywhere ps_fields]. rewrite X1. repeat split.
  - intros b58 icon specs cn bits. unfold card_call, card_pallet_specific. cbn [ps_fields card_variant_fields card_field_set].
    unfold card_ext_with. rewrite N1, X1. reflexivity.
Qed.

(** The extrinsic that sets the time is accepted, and shown with exactly this time. *)
Theorem c80_clock : forall ME (c : chain ME) p v i j now,
  acyclic (ch_types c) -> ch_params c = inl p -> ch_call c = inl (ep_call p) -> ch_version c = inl v -> (v < 128)%N ->
  clock_call (ch_types c) (ep_call p) i j -> (i < 256)%N -> (j < 256)%N -> (now < 2 ^ 64)%N ->
  exists d, unchecked_extrinsic c (inherent v (clock_bytes i j now)) = Ok (UxUnsigned d) /\
    forall b58 icon specs chain_name bits, map (show bits) (card_call b58 icon specs chain_name d 0) = clock_lines now.
Proof.
  intros ME c p v i j now H1 H2 H3 H4 H5 H6 H7 H8 H9.
  destruct (clock_is_call ME c (ep_call p) i j now H1 H3 H6 H7 H8 H9) as (d & Hd & Hb & _ & HL).
  exists d. split; [|exact HL]. apply (c69_unsigned ME c p v (clock_bytes i j now) d); try assumption.
  apply (fits_less U32 20%nat); [|reflexivity]. unfold clock_bytes. cbn [List.length].
  apply u64 in H9. pose proof (compact_enc_length U64 now H9) as S. lia.
Qed.
Print Assumptions c80_clock.

(** Conversely, what is shown like this sets this time; only bytes after the call may follow. *)
Theorem c80_only_clock : forall ME (c : chain ME) p v i j now,
  acyclic (ch_types c) -> told_apart (ch_types c) ->
  ch_params c = inl p -> ch_call c = inl (ep_call p) -> ch_version c = inl v ->
  clock_call (ch_types c) (ep_call p) i j -> (i < 256)%N -> (j < 256)%N -> (now < 2 ^ 64)%N ->
  forall b58 icon specs chain_name bits data d,
  base58_faithful b58 -> bits_faithful bits -> (decimals specs < 256)%N -> is_bytes data ->
  unchecked_extrinsic c data = Ok (UxUnsigned d) ->
  map (show bits) (card_call b58 icon specs chain_name d 0) = clock_lines now ->
  exists following, data = inherent v (clock_bytes i j now ++ following).
Proof.
  intros ME c p v i j now H1 Ha H2 H3 H4 H6 H7 H8 H9 b58 icon specs cn bits data d F1 F2 Hd Hb U HL.
  destruct (clock_is_call ME c (ep_call p) i j now H1 H3 H6 H7 H8 H9) as (d0 & Hc & Hb0 & Hh & HL0).
  apply (c80_lines b58 icon specs cn bits ME c p v _ d0 data d); try assumption. rewrite HL, HL0. reflexivity.
Qed.
Print Assumptions c80_only_clock.
