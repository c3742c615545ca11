(** C56: what is parsed determines the bytes: values, storage entries, transactions,
    unchecked extrinsics. *)
From Coq Require Import Lia ZifyN.
From Verif Require Import Base Compact Types Indicators Decode Sign Unchecked Storage Balance Cards Spec SpecCards SpecSign SpecStorage
  SpecUnchecked SpecSee ProofBase ProofCor ProofStorage ProofUnchecked ProofSee ProofSee2 Sample SampleChain PropSee PropStorage PropUnchecked
  Api ApiStorage ApiSign.
Local Open Scope list_scope.

Notation plain_lines x := (map (show plain_bits) (card_ext hex_address (fun b => b) unit_specs ""%string x 0 true)).

Lemma lines_bytes types id v1 v2 bs1 bs2 x1 x2 : told_apart types ->
  enc types false id v1 = Some bs1 -> enc types false id v2 = Some bs2 ->
  view types false HNone id v1 = Some (x_data x1, x_info x1) -> view types false HNone id v2 = Some (x_data x2, x_info x2) ->
  nothing_hidden (x_data x1) -> plain_lines x1 = plain_lines x2 -> bs1 = bs2.
Proof.
  intros Ha E1 E2 V1 V2 Hn E. apply (f_equal (fun l => l ++ [])) in E.
  destruct (see_all hex_address (fun b => b) unit_specs ""%string plain_bits types hex_address_faithful plain_bits_faithful
    ltac:(reflexivity) Ha v1 false false HNone id v2 bs1 bs2 (x_data x1) (x_data x2) (x_info x1) (x_info x2) 0 true _ _ [] []
    E1 E2 V1 V2 (or_introl (ex_intro _ _ eq_refl)) (or_introl (ex_intro _ _ eq_refl)) Hn E) as [H _].
  exact H.
Qed.

Lemma same_view_same_bytes types id v1 v2 bs1 bs2 x : told_apart types ->
  enc types false id v1 = Some bs1 -> enc types false id v2 = Some bs2 ->
  view types false HNone id v1 = Some (x_data x, x_info x) -> view types false HNone id v2 = Some (x_data x, x_info x) ->
  nothing_hidden (x_data x) -> bs1 = bs2.
Proof. intros Ha E1 E2 V1 V2 Hn. exact (lines_bytes types id v1 v2 bs1 bs2 x x Ha E1 E2 V1 V2 Hn eq_refl). Qed.

Lemma call_bytes types id v1 v2 bs1 bs2 x1 x2 d : told_apart types ->
  enc types false id v1 = Some bs1 -> enc types false id v2 = Some bs2 ->
  view types false HNone id v1 = Some (x_data x1, x_info x1) -> view types false HNone id v2 = Some (x_data x2, x_info x2) ->
  x_data x1 = DCall d -> x_data x2 = DCall d -> nothing_hidden (DCall d) -> bs1 = bs2.
Proof.
  intros Ha E1 E2 V1 V2 X1 X2 Hn. rewrite <- X1 in Hn. apply (lines_bytes types id v1 v2 bs1 bs2 x1 x2 Ha E1 E2 V1 V2 Hn).
  destruct x1 as [d1 i1], x2 as [d2 i2]. cbn [x_data] in X1, X2. subst. reflexivity.
Qed.

Lemma encodes_same types id bs1 bs2 x : told_apart types -> encodes types id bs1 x -> encodes types id bs2 x ->
  nothing_hidden (x_data x) -> bs1 = bs2.
Proof. intros Ha (v1 & E1 & V1) (v2 & E2 & V2). exact (same_view_same_bytes types id v1 v2 bs1 bs2 x Ha E1 E2 V1 V2). Qed.

(** Values: the bytes used are the same, wherever they are. *)
Theorem c56_value : forall types data1 data2 id p1 p2 x q1 q2,
  told_apart types -> is_bytes data1 -> is_bytes data2 ->
  decode_at types data1 id p1 = (Ok x, q1) -> decode_at types data2 id p2 = (Ok x, q2) -> nothing_hidden (x_data x) ->
  slice data1 p1 (q1 - p1) = slice data2 p2 (q2 - p2) /\ (q1 - p1 = q2 - p2)%nat.
Proof.
  intros types data1 data2 id p1 p2 x q1 q2 Ha B1 B2 D1 D2 Hn.
  destruct (slice_see hex_address (fun b => b) unit_specs ""%string plain_bits types hex_address_faithful plain_bits_faithful
    ltac:(reflexivity) Ha data1 data2 id p1 p2 x x q1 q2 0 true [] [] B1 B2 D1 D2 Hn eq_refl) as (H1 & H2 & _). auto.
Qed.
Print Assumptions c56_value.

Theorem c56_blob : forall types data1 data2 id x,
  told_apart types -> is_bytes data1 -> is_bytes data2 ->
  decode_all types data1 id = Ok x -> decode_all types data2 id = Ok x -> nothing_hidden (x_data x) -> data1 = data2.
Proof.
  intros types data1 data2 id x Ha B1 B2 D1 D2 Hn.
  exact (blob_see hex_address (fun b => b) unit_specs ""%string plain_bits types hex_address_faithful plain_bits_faithful
    ltac:(reflexivity) Ha data1 data2 id x x 0 true B1 B2 D1 D2 Hn eq_refl).
Qed.
Print Assumptions c56_blob.

(** Storage entries. *)
Definition part_in_full (k : key_part) : Prop := match k with KParsed x => nothing_hidden (x_data x) | KHash _ _ _ => True end.
Definition key_in_full (k : key_data) : Prop :=
  match k with KPlain => True | KSingle p => part_in_full p | KTuple l _ => Forall part_in_full l end.

Lemma piece_same b1 t1 types h id bs1 bs2 part : told_apart types ->
  piece b1 t1 types h id bs1 part -> piece b1 t1 types h id bs2 part -> part_in_full part -> bs1 = bs2.
Proof.
  intros Ha H1 H2 Hn. inversion H1; subst; inversion H2; subst; try congruence;
    try (match goal with A : concat_kind _ _ ?h = Some _, B : concat_kind _ _ ?h = Some _ |- _ =>
           rewrite A in B; injection B as <- <- end);
    try (match goal with A : encodes _ _ ?x _, B : encodes _ _ ?y _ |- _ =>
           pose proof (encodes_same _ _ _ _ _ Ha A B Hn) end; congruence);
    try discriminate.
Qed.

Lemma pieces_same b1 t1 types hs : forall ids l1 l2 xs, told_apart types ->
  pieces b1 t1 types hs ids l1 xs -> pieces b1 t1 types hs ids l2 xs -> Forall part_in_full xs -> l1 = l2.
Proof.
  induction hs as [|h hs IH]; intros ids l1 l2 xs Ha H1 H2 Hn.
  - inversion H1; subst. inversion H2; subst. reflexivity.
  - inversion H1 as [|h' id bs1 x hs' ids' m1 xs' P1 R1]; subst. inversion H2 as [|h' id' bs2 x' hs' ids'' m2 xs'' P2 R2]; subst.
    inversion Hn as [|? ? N1 N2]; subst. f_equal; [exact (piece_same _ _ _ _ _ _ _ _ Ha P1 P2 N1)|].
    exact (IH _ _ _ _ Ha R1 R2 N2).
Qed.

(** Everything after the 32 bytes that name the entry, and the value. *)
Theorem c56_storage : forall blake2_128 twox_64 types key1 key2 value1 value2 entry s,
  told_apart types -> is_bytes key1 -> is_bytes key2 -> is_bytes value1 -> is_bytes value2 ->
  storage_entry blake2_128 twox_64 types key1 value1 entry = Ok s ->
  storage_entry blake2_128 twox_64 types key2 value2 entry = Ok s ->
  key_in_full (st_key s) -> nothing_hidden (x_data (st_value s)) ->
  skipn 32 key1 = skipn 32 key2 /\ value1 = value2.
Proof.
  intros b1 t1 types key1 key2 value1 value2 entry s Ha K1 K2 B1 B2 S1 S2 Nk Nv.
  apply storage_sound in S1; [|exact K1|exact B1]. apply storage_sound in S2; [|exact K2|exact B2].
  destruct S1 as [S1 _], S2 as [S2 _].
  inversion S1 as [vt1 x1 L1 E1 T1 Q1 Y1|hs1 kt1 vt1 pre1 rest1 k1 x1 L1 P1 M1 E1 T1 Q1 Y1];
  inversion S2 as [vt2 x2 L2 E2 T2 Q2 Y2|hs2 kt2 vt2 pre2 rest2 k2 x2 L2 P2 M2 E2 T2 Q2 Y2]; subst x1 x2.
  - rewrite !skipn_all2 by lia. split; [reflexivity|]. assert (vt1 = vt2) as -> by congruence.
    exact (encodes_same _ _ _ _ _ Ha E1 E2 Nv).
  - congruence.
  - congruence.
  - assert (vt1 = vt2) as -> by congruence. split; [|exact (encodes_same _ _ _ _ _ Ha E1 E2 Nv)].
    assert (hs1 = hs2) as -> by congruence. assert (kt1 = kt2) as -> by congruence.
    rewrite L1, L2. rewrite <- P1 at 1. rewrite <- P2. rewrite !skipn_app_exact. clear L1 L2.
    rewrite <- Q1 in Nk, Q2. subst k1 k2. 
    inversion M1 as [h1 c1 y1 H1 R1 U1 W1|u1 i1 l1 y1 H1 R1 D1 Z1 U1 W1]; inversion M2 as [h2 c2 y2 H2 R2 U2 W2|u2 i2 l2 y2 H2 R2 D2 Z2 U2 W2].
    + rewrite <- W1 in W2, Nk. injection W2 as ->. assert (h1 = h2) as -> by congruence.
      exact (piece_same _ _ _ _ _ _ _ _ Ha R1 R2 Nk).
    + rewrite <- W1 in W2. discriminate W2.
    + rewrite <- W1 in W2. discriminate W2.
    + rewrite <- W1 in W2, Nk. injection W2 as -> _ _. assert (u1 = u2) as -> by congruence. assert (i1 = i2) as -> by congruence.
      f_equal. exact (pieces_same _ _ _ _ _ _ _ _ Ha Z1 Z2 Nk).
Qed.
Print Assumptions c56_storage.

(** Transactions to be signed, marked and unmarked. *)
Theorem c56_transaction : forall ME (c : ApiSign.chain ME) g1 g2 data1 data2 call xs,
  told_apart (ch_types c) -> is_bytes data1 -> is_bytes data2 ->
  transaction c g1 data1 = Ok (TransactionParsed (inl call) xs) ->
  transaction c g2 data2 = Ok (TransactionParsed (inl call) xs) ->
  nothing_hidden (DCall call) -> Forall (fun x => nothing_hidden (x_data x)) xs -> data1 = data2.
Proof.
  intros ME c g1 g2 data1 data2 call xs Ha B1 B2 T1 T2 N1 Ns.
  exact (transaction_see c hex_address (fun b => b) unit_specs ""%string plain_bits hex_address_faithful plain_bits_faithful
    ltac:(reflexivity) Ha g1 g2 data1 data2 call call xs xs B1 B2 T1 T2 N1 Ns eq_refl).
Qed.
Print Assumptions c56_transaction.

Theorem c56_unmarked : forall ME (c : ApiSign.chain ME) g1 g2 data1 data2 call xs,
  told_apart (ch_types c) -> is_bytes data1 -> is_bytes data2 ->
  transaction_unmarked c g1 data1 = Ok (call, xs) -> transaction_unmarked c g2 data2 = Ok (call, xs) ->
  nothing_hidden (DCall call) -> Forall (fun x => nothing_hidden (x_data x)) xs -> data1 = data2.
Proof.
  intros ME c g1 g2 data1 data2 call xs Ha B1 B2 T1 T2 N1 Ns.
  exact (unmarked_see c hex_address (fun b => b) unit_specs ""%string plain_bits hex_address_faithful plain_bits_faithful
    ltac:(reflexivity) Ha g1 g2 data1 data2 call call xs xs B1 B2 T1 T2 N1 Ns eq_refl).
Qed.
Print Assumptions c56_unmarked.

(** Unchecked extrinsics: the same up to bytes after the call, which are not looked at (C32),
    and the length announced for them. *)
Definition unchecked_in_full (u : unchecked) : Prop :=
  match u with
  | UxUnsigned d => nothing_hidden (DCall d)
  | UxSigned a s e d => nothing_hidden (x_data a) /\ nothing_hidden (x_data s) /\ nothing_hidden (x_data e) /\ nothing_hidden (DCall d)
  end.

Theorem c56_unchecked : forall ME (c : ApiSign.chain ME) data1 data2 u,
  told_apart (ch_types c) -> is_bytes data1 -> is_bytes data2 ->
  unchecked_extrinsic c data1 = Ok u -> unchecked_extrinsic c data2 = Ok u -> unchecked_in_full u ->
  exists p b content rest1 rest2, ch_params c = inl p /\
    framed data1 (b :: content ++ rest1) /\ framed data2 (b :: content ++ rest2) /\
    parts (ch_types c) p (128 <=? b)%N content u [].
Proof.
  intros ME c data1 data2 u Ha B1 B2 U1 U2 Hn.
  apply unchecked_sound in U1; [|exact B1]. apply unchecked_sound in U2; [|exact B2].
  destruct U1 as (p & v & b1 & c1 & r1 & P1 & V1 & F1 & M1 & H1).
  destruct U2 as (p' & v' & b2 & c2 & r2 & P2 & V2 & F2 & M2 & H2).
  rewrite P1 in P2. injection P2 as <-. rewrite V1 in V2. injection V2 as <-.
  assert (L1 : (b1 < 256)%N).
  { destruct F1 as [_ F1]. rewrite F1 in B1. apply is_bytes_app in B1. destruct B1 as [_ B1]. inversion B1. assumption. }
  assert (L2 : (b2 < 256)%N).
  { destruct F2 as [_ F2]. rewrite F2 in B2. apply is_bytes_app in B2. destruct B2 as [_ B2]. inversion B2. assumption. }
  assert (Hs : (128 <=? b1)%N = (128 <=? b2)%N).
  { revert H1 H2. destruct (128 <=? b1)%N, (128 <=? b2)%N; auto; intros H1 H2; inversion H1; inversion H2; congruence. }
  assert (b1 = b2) as ->.
  { revert Hs M1 M2. clear - L1 L2. intros Hs M1 M2.
    destruct (N.leb_spec 128 b1), (N.leb_spec 128 b2); try discriminate Hs.
    - Z.to_euclidean_division_equations. lia.
    - Z.to_euclidean_division_equations. lia. }
  clear Hs. exists p, b2.
  destruct (128 <=? b2)%N.
  - inversion H1 as [|a1 s1 e1 k1 rr1 xa1 xs1 xe1 x1 d1 va1 vs1 ve1 vc1 EA1 VA1 ES1 VS1 EE1 VE1 EC1 VC1 X1]; subst.
    inversion H2 as [|a2 s2 e2 k2 rr2 xa2 xs2 xe2 x2 d2 va2 vs2 ve2 vc2 EA2 VA2 ES2 VS2 EE2 VE2 EC2 VC2 X2]; subst.
    destruct Hn as (N1 & N2 & N3 & N4).
    pose proof (same_view_same_bytes _ _ _ _ _ _ _ Ha EA1 EA2 VA1 VA2 N1). subst a2.
    pose proof (same_view_same_bytes _ _ _ _ _ _ _ Ha ES1 ES2 VS1 VS2 N2). subst s2.
    pose proof (same_view_same_bytes _ _ _ _ _ _ _ Ha EE1 EE2 VE1 VE2 N3). subst e2.
    pose proof (call_bytes _ _ _ _ _ _ _ _ _ Ha EC1 EC2 VC1 VC2 X1 X2 N4). subst k2.
    exists (a1 ++ s1 ++ e1 ++ k1), r1, r2. rewrite <- !app_assoc. split; [exact P1|]. split; [exact F1|]. split; [exact F2|].
    rewrite <- (app_nil_r k1). eapply UP_signed; eassumption.
  - inversion H1 as [k1 rr1 x1 d1 vc1 EC1 VC1 X1|]; subst. inversion H2 as [k2 rr2 x2 d2 vc2 EC2 VC2 X2|]; subst.
    pose proof (call_bytes _ _ _ _ _ _ _ _ _ Ha EC1 EC2 VC1 VC2 X1 X2 Hn). subst k2.
    exists k1, r1, r2. split; [exact P1|]. split; [exact F1|]. split; [exact F2|].
    rewrite <- (app_nil_r k1). eapply UP_unsigned; eassumption.
Qed.
Print Assumptions c56_unchecked.

(** Concrete cases. *)
Example c56_storage_case : told_apart storage_types /\
  exists s, storage_entry (fake 16) (fake 8) storage_types tuple_key [9; 0; 0; 0]%N tuple_entry = Ok s /\
    key_in_full (st_key s) /\ nothing_hidden (x_data (st_value s)).
Proof.
  split; [apply apart_check_ok; vm_compute; reflexivity|]. eexists. split; [vm_compute; reflexivity|].
  split; [|vm_compute; auto]. apply Forall_forall. intros k [<- | [<- | [<- | [] ] ] ]; vm_compute; auto.
Qed.

Example c56_unchecked_case : told_apart (ch_types sample_chain) /\
  unchecked_extrinsic sample_chain (frame signed_content) = Ok signed_shown /\ unchecked_in_full signed_shown /\
  unchecked_extrinsic sample_chain (frame (signed_content ++ [1; 2; 3]%N)) = Ok signed_shown.
Proof.
  split; [apply apart_check_ok; vm_compute; reflexivity|]. split; [vm_compute; reflexivity|].
  split; [vm_compute; repeat split|vm_compute; reflexivity].
Qed.

(** The 32 bytes that name the entry are not part of what is parsed. *)
Example c56_prefix : exists key1 key2 s, key1 <> key2 /\
  storage_entry (fake 16) (fake 8) storage_types key1 [9; 0; 0; 0]%N tuple_entry = Ok s /\
  storage_entry (fake 16) (fake 8) storage_types key2 [9; 0; 0; 0]%N tuple_entry = Ok s.
Proof.
  exists tuple_key, (repeat 77%N 32 ++ skipn 32 tuple_key). eexists. split; [vm_compute; discriminate|].
  split; vm_compute; reflexivity.
Qed.
