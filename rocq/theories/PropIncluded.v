(** C77: a transfer included in a block is shown as it was signed: sender, signature, extensions,
    recipient and exact amount; and the lines of an extrinsic determine its bytes. *)
From Coq Require Import Lia.
From Verif Require Import Base Compact Types Indicators Decode Sign Unchecked Balance Cards Spec SpecSign SpecCards SpecSee SpecTransfer SpecIncluded
  SpecUnchecked Api ApiSign ProofBase ProofCompact ProofLeaf ProofWf ProofCor ProofSign2 ProofTransfer ProofIncluded ProofUnchecked PropTransfer PropInclude.
From Verif Require PropSign PropSee PropUnchecked.
Local Open Scope string_scope.
Local Open Scope list_scope.

(** ** The lines of an extrinsic determine its bytes *)

Lemma four_slices data p0 p1 p2 p3 p4 : (p0 <= p1)%nat -> (p1 <= p2)%nat -> (p2 <= p3)%nat -> (p3 <= p4)%nat -> (p4 <= List.length data)%nat ->
  skipn p0 data = (slice data p0 (p1 - p0) ++ slice data p1 (p2 - p1) ++ slice data p2 (p3 - p2) ++ slice data p3 (p4 - p3)) ++ skipn p4 data.
Proof.
  intros H1 H2 H3 H4 H5.
  assert (E : forall a b c, (a <= b)%nat -> (b <= c)%nat -> slice data a (b - a) ++ slice data b (c - b) = slice data a (c - a)).
  { intros a b c0 A B. replace (c0 - a)%nat with ((b - a) + (c0 - b))%nat by lia. rewrite slice_app. replace (a + (b - a))%nat with b by lia. reflexivity. }
  rewrite (E p2 p3 p4), (E p1 p2 p4), (E p0 p1 p4) by lia.
  unfold slice. rewrite <- (firstn_skipn (p4 - p0) (skipn p0 data)) at 1. f_equal.
  rewrite skipn_skipn. f_equal. lia.
Qed.

Lemma four_slice data p0 p1 p2 p3 p4 : (p0 <= p1)%nat -> (p1 <= p2)%nat -> (p2 <= p3)%nat -> (p3 <= p4)%nat ->
  slice data p0 (p4 - p0) = slice data p0 (p1 - p0) ++ slice data p1 (p2 - p1) ++ slice data p2 (p3 - p2) ++ slice data p3 (p4 - p3).
Proof.
  intros H1 H2 H3 H4.
  assert (E : forall a b c, (a <= b)%nat -> (b <= c)%nat -> slice data a (b - a) ++ slice data b (c - b) = slice data a (c - a)).
  { intros a b c0 A B. replace (c0 - a)%nat with ((b - a) + (c0 - b))%nat by lia. rewrite slice_app. replace (a + (b - a))%nat with b by lia. reflexivity. }
  rewrite (E p2 p3 p4), (E p1 p2 p4), (E p0 p1 p4) by lia. reflexivity.
Qed.

Lemma framed_rest data b rest : framed data (b :: rest) -> skipn (List.length data - List.length rest) data = rest.
Proof.
  intros (_ & ->). replace (compact_enc (N.of_nat (List.length (b :: rest))) ++ b :: rest) with
    ((compact_enc (N.of_nat (List.length (b :: rest))) ++ [b]) ++ rest) by (rewrite <- app_assoc; reflexivity).
  rewrite app_length, Nat.add_sub, skipn_app, Nat.sub_diag, skipn_all. reflexivity.
Qed.

Lemma turn_length ME (c : chain ME) data l : forall p xs q, in_turn c data l p (inl (xs, q)) -> List.length xs = List.length l.
Proof.
  induction l as [|id l IH]; intros p xs q H; [inversion H; reflexivity|].
  apply turn_cons in H. destruct H as (x & q1 & xs' & -> & _ & H). cbn [List.length]. rewrite (IH _ _ _ H). reflexivity.
Qed.

Lemma turn_nil ME (c : chain ME) data p xs q : in_turn c data [] p (inl (xs, q)) -> q = p.
Proof. intros H. inversion H. reflexivity. Qed.

Lemma turn_moved ME (c : chain ME) data l p0 xs q head b : is_bytes data -> (p0 <= List.length data)%nat -> is_bytes head -> (b < 256)%N ->
  in_turn c data l p0 (inl (xs, q)) ->
  in_turn c (head ++ b :: slice data p0 (q - p0)) l (List.length (head ++ b :: slice data p0 (q - p0)) - List.length (slice data p0 (q - p0)))
    (inl (xs, (List.length (head ++ [b]) + (q - p0))%nat)).
Proof.
  intros Hb Hp0 Hh Hby T.
  assert (Hpre : is_bytes ((head ++ [b]) ++ [])).
  { rewrite app_nil_r. apply is_bytes_app. split; [exact Hh|]. constructor; [assumption|constructor]. }
  pose proof (turn_local c data _ Hb p0 xs q (head ++ [b]) [] Hp0 Hpre T) as TL.
  rewrite app_nil_r, <- (app_assoc head [b]) in TL. cbn [app] in TL.
  replace (List.length (head ++ b :: slice data p0 (q - p0)) - List.length (slice data p0 (q - p0)))%nat with (List.length (head ++ [b])); [exact TL|].
  rewrite !app_length. cbn [List.length]. lia.
Qed.

(** The bytes read are an extrinsic on their own. *)
Lemma just_read ME (c : chain ME) data u p b rest v xs q : is_bytes data ->
  ch_params c = inl p -> framed data (b :: rest) -> ch_version c = inl v -> (b mod 128 = v)%N ->
  in_turn c data (order (128 <=? b)%N p) (List.length data - List.length rest) (inl (xs, q)) -> shape xs u ->
  forall content, content = b :: slice data (List.length data - List.length rest) (q - (List.length data - List.length rest)) ->
  unchecked_extrinsic c (compact_enc (N.of_nat (List.length content)) ++ content) = Ok u.
Proof.
  intros Hb P G V M T S content Hc. pose proof (framed_rest _ _ _ G) as R.
  remember (List.length data - List.length rest)%nat as p0 eqn:Ep.
  assert (Hp0 : (p0 <= List.length data)%nat) by lia.
  destruct G as (F & E).
  assert (Hlen : (List.length content <= List.length (b :: rest))%nat).
  { rewrite Hc. unfold slice. rewrite R. cbn [List.length]. rewrite firstn_length. lia. }
  assert (Hfit : fits U32 (N.of_nat (List.length content)) = true) by (apply (fits_less _ _ _ Hlen F)).
  assert (Hcont : is_bytes (b :: rest)).
  { rewrite E in Hb. apply is_bytes_app in Hb. exact (proj2 Hb). }
  assert (Hby : (b < 256)%N) by (inversion Hcont; assumption).
  assert (Hsl : is_bytes content).
  { rewrite Hc. constructor; [exact Hby|]. unfold slice. rewrite R. inversion Hcont as [|? ? _ Hr]. apply Forall_forall. intros y Hy.
    rewrite Forall_forall in Hr. apply Hr. rewrite <- (firstn_skipn (q - p0) rest). apply in_or_app. left. exact Hy. }
  assert (Hhead : is_bytes (compact_enc (N.of_nat (List.length content)))) by (apply (compact_enc_fits_is_bytes U32), Hfit).
  assert (G' : framed (compact_enc (N.of_nat (List.length content)) ++ content) content) by (split; [exact Hfit|reflexivity]).
  remember (compact_enc (N.of_nat (List.length content))) as head eqn:Hd. clear Hd.
  rewrite Hc in *.
  refine (turn_parsed c _ u p b (slice data p0 (q - p0)) v xs _ _ P G' V M (turn_moved ME c data _ p0 xs q head b Hb Hp0 Hhead Hby T) S).
  apply is_bytes_app. split; assumption.
Qed.

Section See.
Variable base58 : fixed_kind -> bytes -> N -> string.
Variable identicon : bytes -> bytes.
Variable specs : short_specs.
Variable name : string.
Variable bits : uwidth -> bit_order -> list bool -> string.

(** The lines of the parts, each as from `ExtendedData::card` and `Call::card`. *)
Definition lines_of (x : ext pdata) : list string := map (show bits) (card_ext base58 identicon specs name x 0 true).
Definition lines_of_call (d : psdata pdata) : list string := map (show bits) (card_call base58 identicon specs name d 0).

Definition extrinsic_lines (u : unchecked) : list string :=
  match u with
  | UxSigned a s e d => lines_of a ++ lines_of s ++ lines_of e ++ lines_of_call d
  | UxUnsigned d => lines_of_call d
  end.
Definition extrinsic_unhidden (u : unchecked) : Prop :=
  match u with
  | UxSigned a s e d => nothing_hidden (x_data a) /\ nothing_hidden (x_data s) /\ nothing_hidden (x_data e) /\ nothing_hidden (DCall d)
  | UxUnsigned d => nothing_hidden (DCall d)
  end.
Definition is_signed (u : unchecked) : bool := match u with UxSigned _ _ _ _ => true | UxUnsigned _ => false end.

Lemma call_lines x d : x_data x = DCall d -> lines_of_call d = lines_of x.
Proof. intros H. unfold lines_of, lines_of_call, card_ext, card_ext_with. rewrite H. reflexivity. Qed.

Lemma version_byte b v : (b < 256)%N -> (b mod 128 = v)%N -> (128 <=? b)%N = true -> b = (128 + v)%N.
Proof.
  intros H1 H2 H3. apply N.leb_le in H3. rewrite <- H2. remember (b - 128)%N as k eqn:Hk. assert (E : (b = k + 1 * 128)%N) by lia.
  rewrite E, N.mod_add by discriminate. rewrite N.mod_small by lia. lia.
Qed.
Lemma version_byte_low b v : (b mod 128 = v)%N -> (128 <=? b)%N = false -> b = v.
Proof. intros H2 H3. apply N.leb_gt in H3. rewrite <- H2. symmetry. apply N.mod_small, H3. Qed.

(** Extrinsics, both signed or both unsigned, that are printed alike are the same and have the same
    content [common] but for what follows it; [common] in a frame of its own is this extrinsic. *)
Theorem c77_lines : forall ME (c : chain ME) data1 data2 u1 u2,
  base58_faithful base58 -> bits_faithful bits -> (decimals specs < 256)%N -> told_apart (ch_types c) ->
  is_bytes data1 -> is_bytes data2 -> unchecked_extrinsic c data1 = Ok u1 -> unchecked_extrinsic c data2 = Ok u2 ->
  is_signed u1 = is_signed u2 -> extrinsic_unhidden u1 -> extrinsic_lines u1 = extrinsic_lines u2 ->
  u1 = u2 /\ exists common t1 t2, framed data1 (common ++ t1) /\ framed data2 (common ++ t2) /\
    unchecked_extrinsic c (compact_enc (N.of_nat (List.length common)) ++ common) = Ok u1.
Proof.
  intros ME c data1 data2 u1 u2 F1 F2 Hd Ha B1 B2 U1 U2 Hs Hh HL.
  apply parsed_turn in U1; [|exact B1]. apply parsed_turn in U2; [|exact B2].
  destruct U1 as (p & b1 & r1 & v & xs1 & e1 & P1 & G1 & V1 & M1 & T1 & S1).
  destruct U2 as (p' & b2 & r2 & v' & xs2 & e2 & P2 & G2 & V2 & M2 & T2 & S2).
  assert (Ep : p' = p) by congruence. assert (Ev : v' = v) by congruence. rewrite Ep in *. rewrite Ev in *. clear P2 V2 Ep Ev.
  assert (K1 : (b1 < 256)%N /\ (List.length data1 - List.length r1 <= List.length data1)%nat).
  { split; [|lia]. destruct G1 as (_ & E). rewrite E in B1. apply is_bytes_app in B1. destruct B1 as (_ & B). inversion B; assumption. }
  assert (K2 : (b2 < 256)%N /\ (List.length data2 - List.length r2 <= List.length data2)%nat).
  { split; [|lia]. destruct G2 as (_ & E). rewrite E in B2. apply is_bytes_app in B2. destruct B2 as (_ & B). inversion B; assumption. }
  pose proof (just_read ME c data1 u1 p b1 r1 v xs1 e1 B1 P1 G1 V1 M1 T1 S1) as J1.
  pose proof (just_read ME c data2 u2 p b2 r2 v xs2 e2 B2 P1 G2 V1 M2 T2 S2) as J2.
  assert (Fin : forall common t1 t2, common = b1 :: slice data1 (List.length data1 - List.length r1) (e1 - (List.length data1 - List.length r1)) ->
    common = b2 :: slice data2 (List.length data2 - List.length r2) (e2 - (List.length data2 - List.length r2)) ->
    framed data1 (common ++ t1) /\ framed data2 (common ++ t2) ->
    u1 = u2 /\ exists common t1 t2, framed data1 (common ++ t1) /\ framed data2 (common ++ t2) /\
      unchecked_extrinsic c (compact_enc (N.of_nat (List.length common)) ++ common) = Ok u1).
  { intros common t1 t2 C1 C2 (Q1 & Q2). apply J1 in C1. apply J2 in C2. clear J1 J2. rename C1 into J1, C2 into J2. split; [rewrite J1 in J2; injection J2 as E; exact E|].
    exists common, t1, t2. split; [exact Q1|split; [exact Q2|exact J1] ]. }
  clear J1 J2.
  pose proof (framed_rest _ _ _ G1) as R1. pose proof (framed_rest _ _ _ G2) as R2.
  remember (List.length data1 - List.length r1)%nat as p0 eqn:Hp0. remember (List.length data2 - List.length r2)%nat as q0 eqn:Hq0.
  destruct K1 as (K1 & L1), K2 as (K2 & L2).
  pose proof (fun id p q x y p' q' m1 m2 => PropSee.c47_at base58 identicon specs name bits (ch_types c) data1 data2 id p q x y p' q' 0 true m1 m2 F1 F2 Hd Ha B1 B2) as See.
  inversion S1 as [x1 d1 X1|a1 s1 z1 x1 d1 X1]; subst xs1 u1; inversion S2 as [x2 d2 X2|a2 s2 z2 x2 d2 X2]; subst xs2 u2; try discriminate Hs.
  - (* unsigned *)
    destruct (128 <=? b1)%N eqn:Q1; [apply turn_length in T1; discriminate T1|].
    destruct (128 <=? b2)%N eqn:Q2; [apply turn_length in T2; discriminate T2|].
    cbn [order] in T1, T2. apply turn_cons in T1. destruct T1 as (y1 & p1 & l1 & E1 & D1 & T1). injection E1 as <- <-. apply turn_nil in T1. subst p1.
    apply turn_cons in T2. destruct T2 as (y2 & q1 & l2 & E2 & D2 & T2). injection E2 as <- <-. apply turn_nil in T2. subst q1.
    cbn [extrinsic_unhidden extrinsic_lines] in Hh, HL. rewrite (call_lines _ _ X1), (call_lines _ _ X2) in HL.
    destruct (See _ _ _ _ _ _ _ [] [] D1 D2) as (W1 & W2 & _); [rewrite X1; exact Hh|rewrite !app_nil_r; exact HL|].
    destruct (decode_bounds c _ _ _ _ _ L1 D1) as (Z1 & Z2). destruct (decode_bounds c _ _ _ _ _ L2 D2) as (Z3 & Z4).
    apply (Fin (v :: slice data1 p0 (e1 - p0)) (skipn e1 data1) (skipn e2 data2));
      [rewrite (version_byte_low b1 v M1 Q1); reflexivity|rewrite W1, (version_byte_low b2 v M2 Q2); reflexivity|].
    assert (J : forall (data r : bytes) (p e : nat), (p <= e)%nat -> skipn p data = r -> r = slice data p (e - p) ++ skipn e data).
    { intros data r i e Hle <-. unfold slice. rewrite <- (firstn_skipn (e - i) (skipn i data)) at 1. f_equal. rewrite skipn_skipn. f_equal. lia. }
    split.
    + rewrite <- (version_byte_low b1 v M1 Q1). cbn [app]. rewrite <- (J data1 r1 p0 e1 Z1 R1). exact G1.
    + rewrite <- (version_byte_low b2 v M2 Q2), W1. cbn [app]. rewrite <- (J data2 r2 q0 e2 Z3 R2). exact G2.
  - (* signed *)
    destruct (128 <=? b1)%N eqn:Q1; [|apply turn_length in T1; discriminate T1].
    destruct (128 <=? b2)%N eqn:Q2; [|apply turn_length in T2; discriminate T2].
    cbn [order] in T1, T2.
    apply turn_cons in T1. destruct T1 as (y1 & p1 & l1 & E1 & A1 & T1). injection E1 as <- <-.
    apply turn_cons in T1. destruct T1 as (y1 & p2 & l1 & E1 & A2 & T1). injection E1 as <- <-.
    apply turn_cons in T1. destruct T1 as (y1 & p3 & l1 & E1 & A3 & T1). injection E1 as <- <-.
    apply turn_cons in T1. destruct T1 as (y1 & p4 & l1 & E1 & A4 & T1). injection E1 as <- <-. apply turn_nil in T1. subst p4.
    apply turn_cons in T2. destruct T2 as (y1 & q1 & l1 & E1 & C1 & T2). injection E1 as <- <-.
    apply turn_cons in T2. destruct T2 as (y1 & q2 & l1 & E1 & C2 & T2). injection E1 as <- <-.
    apply turn_cons in T2. destruct T2 as (y1 & q3 & l1 & E1 & C3 & T2). injection E1 as <- <-.
    apply turn_cons in T2. destruct T2 as (y1 & q4 & l1 & E1 & C4 & T2). injection E1 as <- <-. apply turn_nil in T2. subst q4.
    cbn [extrinsic_unhidden extrinsic_lines] in Hh, HL. destruct Hh as (N1 & N2 & N3 & N4).
    rewrite (call_lines _ _ X1), (call_lines _ _ X2) in HL. unfold lines_of in HL.
    destruct (See _ _ _ _ _ _ _ _ _ A1 C1 N1 HL) as (W1 & _ & HL2).
    destruct (See _ _ _ _ _ _ _ _ _ A2 C2 N2 HL2) as (W2 & _ & HL3).
    destruct (See _ _ _ _ _ _ _ _ _ A3 C3 N3 HL3) as (W3 & _ & HL4).
    destruct (See _ _ _ _ _ _ _ [] [] A4 C4) as (W4 & _ & _); [rewrite X1; exact N4|rewrite !app_nil_r; exact HL4|].
    pose proof (decode_bounds c _ _ _ _ _ L1 A1) as Z1. pose proof (decode_bounds c _ _ _ _ _ (proj2 Z1) A2) as Z2.
    pose proof (decode_bounds c _ _ _ _ _ (proj2 Z2) A3) as Z3. pose proof (decode_bounds c _ _ _ _ _ (proj2 Z3) A4) as Z4.
    pose proof (decode_bounds c _ _ _ _ _ L2 C1) as Y1. pose proof (decode_bounds c _ _ _ _ _ (proj2 Y1) C2) as Y2.
    pose proof (decode_bounds c _ _ _ _ _ (proj2 Y2) C3) as Y3. pose proof (decode_bounds c _ _ _ _ _ (proj2 Y3) C4) as Y4.
    rewrite (four_slices data1 p0 p1 p2 p3 e1) in R1 by lia. rewrite (four_slices data2 q0 q1 q2 q3 e2) in R2 by lia.
    apply (Fin ((128 + v)%N :: slice data1 p0 (p1 - p0) ++ slice data1 p1 (p2 - p1) ++ slice data1 p2 (p3 - p2) ++ slice data1 p3 (e1 - p3))
      (skipn e1 data1) (skipn e2 data2)).
    { rewrite (version_byte b1 v K1 M1 Q1). f_equal. symmetry. apply four_slice; lia. }
    { rewrite W1, W2, W3, W4, (version_byte b2 v K2 M2 Q2). f_equal. symmetry. apply four_slice; lia. }
    split.
    + cbn [app]. rewrite <- (version_byte b1 v K1 M1 Q1), R1. exact G1.
    + rewrite W1, W2, W3, W4. cbn [app]. rewrite <- (version_byte b2 v K2 M2 Q2), R2. exact G2.
Qed.
(** Whatever is shown like these four values is made of their bytes; only after the call may more
    bytes follow. *)
Theorem c77_parts : forall ME (c : chain ME) p v address signature extra call xa xs xe d data xa' xs' xe' d',
  base58_faithful base58 -> bits_faithful bits -> (decimals specs < 256)%N -> told_apart (ch_types c) ->
  is_bytes data -> is_bytes (address ++ signature ++ extra ++ call) ->
  ch_params c = inl p -> ch_call c = inl (ep_call p) -> ch_version c = inl v ->
  decode_all (ch_types c) address (ep_address p) = Ok xa ->
  decode_all (ch_types c) signature (ep_signature p) = Ok xs ->
  decode_all (ch_types c) extra (ep_extra p) = Ok xe -> PropInclude.is_call c call d ->
  extrinsic_unhidden (UxSigned xa xs xe d) ->
  unchecked_extrinsic c data = Ok (UxSigned xa' xs' xe' d') ->
  extrinsic_lines (UxSigned xa xs xe d) = extrinsic_lines (UxSigned xa' xs' xe' d') ->
  exists following, data = signed_extrinsic v address signature extra (call ++ following).
Proof.
  intros ME c p v ba bs be bc xa xs xe d data xa' xs' xe' d' F1 F2 Hd Ha B2 B1 P1 PC V1 DA DS DE (id & xc & Hid & DC & X1) Hh U2 HL.
  assert (Eid : id = ep_call p) by congruence. subst id. clear Hid PC.
  apply parsed_turn in U2; [|exact B2]. destruct U2 as (p' & b2 & r2 & v' & xs2 & e2 & P2 & G2 & V2 & M2 & T2 & S2).
  assert (Ep : p' = p) by congruence. assert (Ev : v' = v) by congruence. rewrite Ep in *. rewrite Ev in *. clear P2 V2 Ep Ev.
  assert (K2 : (b2 < 256)%N /\ (List.length data - List.length r2 <= List.length data)%nat).
  { split; [|lia]. destruct G2 as (_ & E). rewrite E in B2. apply is_bytes_app in B2. destruct B2 as (_ & B). inversion B; assumption. }
  pose proof (framed_rest _ _ _ G2) as R2. remember (List.length data - List.length r2)%nat as q0 eqn:Hq0. destruct K2 as (K2 & L2).
  unfold is_bytes in B1. rewrite !Forall_app in B1. destruct B1 as (Ba & Bs & Be & Bc).
  assert (See : forall id part x y q q' m1 m2, is_bytes part -> decode_all (ch_types c) part id = Ok x -> decode_at (ch_types c) data id q = (Ok y, q') ->
    nothing_hidden (x_data x) -> lines_of x ++ m1 = lines_of y ++ m2 -> slice data q (q' - q) = part /\ m1 = m2).
  { intros id part x y q q' m1 m2 Hp Hx Hy Hn HE. apply whole_at in Hx.
    destruct (PropSee.c47_at base58 identicon specs name bits (ch_types c) part data id 0 q x y _ q' 0 true m1 m2 F1 F2 Hd Ha Hp B2 Hx Hy Hn HE) as (E & _ & Em).
    split; [|exact Em]. rewrite <- E, Nat.sub_0_r. unfold slice. cbn [skipn]. apply firstn_all. }
  inversion S2 as [|a2 s2 z2 x2 d2 X2]; subst xs2 a2 s2 z2 d2.
  destruct (128 <=? b2)%N eqn:Q2; [|apply turn_length in T2; discriminate T2].
  cbn [order] in T2.
  apply turn_cons in T2. destruct T2 as (y1 & q1 & l1 & E1 & C1 & T2). injection E1 as <- <-.
  apply turn_cons in T2. destruct T2 as (y1 & q2 & l1 & E1 & C2 & T2). injection E1 as <- <-.
  apply turn_cons in T2. destruct T2 as (y1 & q3 & l1 & E1 & C3 & T2). injection E1 as <- <-.
  apply turn_cons in T2. destruct T2 as (y1 & q4 & l1 & E1 & C4 & T2). injection E1 as <- <-. apply turn_nil in T2. subst q4.
  cbn [extrinsic_unhidden extrinsic_lines] in Hh, HL. destruct Hh as (N1 & N2 & N3 & N4).
  rewrite (call_lines _ _ X1), (call_lines _ _ X2) in HL.
  destruct (See _ _ _ _ _ _ _ _ Ba DA C1 N1 HL) as (W1 & HL2).
  destruct (See _ _ _ _ _ _ _ _ Bs DS C2 N2 HL2) as (W2 & HL3).
  destruct (See _ _ _ _ _ _ _ _ Be DE C3 N3 HL3) as (W3 & HL4).
  destruct (See _ _ _ _ _ _ [] [] Bc DC C4) as (W4 & _); [rewrite X1; exact N4|rewrite !app_nil_r; exact HL4|].
  pose proof (decode_bounds c _ _ _ _ _ L2 C1) as Y1. pose proof (decode_bounds c _ _ _ _ _ (proj2 Y1) C2) as Y2.
  pose proof (decode_bounds c _ _ _ _ _ (proj2 Y2) C3) as Y3. pose proof (decode_bounds c _ _ _ _ _ (proj2 Y3) C4) as Y4.
  rewrite (four_slices data q0 q1 q2 q3 e2) in R2 by lia. rewrite W1, W2, W3, W4 in R2.
  exists (skipn e2 data). destruct G2 as (_ & G2). rewrite (version_byte b2 v K2 M2 Q2), <- R2 in G2. rewrite G2 at 1.
  unfold signed_extrinsic, PropUnchecked.frame. rewrite (N.add_comm v 128), <- !app_assoc. reflexivity.
Qed.
End See.
Print Assumptions c77_lines.
Print Assumptions c77_parts.

(** ** Transfers *)

Lemma once {A} (l : list A) k ids : NoDup ids -> (List.length (flat_map (fun i => if String.eqb i k then l else []) ids) <= List.length l)%nat.
Proof.
  intros H. induction H as [|i ids Hi _ IH]; [cbn; lia|]. cbn [flat_map]. rewrite app_length.
  destruct (String.eqb_spec i k) as [->|E]; [|exact IH].
  assert (Z : flat_map (fun i => if String.eqb i k then l else []) ids = []).
  { clear IH. induction ids as [|j ids IHi]; [reflexivity|]. cbn [flat_map]. destruct (String.eqb_spec j k) as [->|E]; [exfalso; apply Hi; left; reflexivity|].
    apply IHi. intros H. apply Hi. right. exact H. }
  rewrite Z. cbn [List.length]. lia.
Qed.

Lemma extra_short types s l : proper s -> usual_extensions types l -> (List.length (extra_bytes s l) <= 100)%nat.
Proof.
  intros (Ke & Kn & Kt & _) (_ & Hnd & _). unfold extra_bytes.
  assert (E : (List.length (flat_map (fun m => extension_bytes s (em_identifier m)) l) <=
    List.length (flat_map (fun i => if String.eqb i "CheckMortality" then era_enc (sg_era s) else []) (map em_identifier l)) +
    List.length (flat_map (fun i => if String.eqb i "CheckNonce" then compact_enc (sg_nonce s) else []) (map em_identifier l)) +
    List.length (flat_map (fun i => if String.eqb i "ChargeTransactionPayment" then compact_enc (sg_tip s) else []) (map em_identifier l)) +
    List.length (flat_map (fun i => if String.eqb i "ChargeAssetTxPayment" then compact_enc (sg_tip s) ++ [0%N] else []) (map em_identifier l)) +
    List.length (flat_map (fun i => if String.eqb i "CheckMetadataHash" then [0%N] else []) (map em_identifier l)))%nat).
  { clear. induction l as [|m l IH]; [cbn; lia|]. cbn [map flat_map]. rewrite !app_length. unfold extension_bytes at 1.
    destruct (String.eqb (em_identifier m) "CheckMortality"); [lia|].
    destruct (String.eqb (em_identifier m) "CheckNonce"); [lia|].
    destruct (String.eqb (em_identifier m) "ChargeTransactionPayment"); [lia|].
    destruct (String.eqb (em_identifier m) "ChargeAssetTxPayment"); [lia|].
    destruct (String.eqb (em_identifier m) "CheckMetadataHash"); [destruct (sg_metadata_hash s)|]; cbn [List.length]; lia. }
  pose proof (once (era_enc (sg_era s)) "CheckMortality" _ Hnd) as O1.
  pose proof (once (compact_enc (sg_nonce s)) "CheckNonce" _ Hnd) as O2.
  pose proof (once (compact_enc (sg_tip s)) "ChargeTransactionPayment" _ Hnd) as O3.
  pose proof (once (compact_enc (sg_tip s) ++ [0%N]) "ChargeAssetTxPayment" _ Hnd) as O4.
  pose proof (once [0%N] "CheckMetadataHash" _ Hnd) as O5. cbn [List.length] in O5.
  pose proof (ProofCompact.compact_enc_length U32 _ Kn) as L2. pose proof (ProofCompact.compact_enc_length U128 _ Kt) as L3.
  rewrite app_length in O4. cbn [List.length] in O4.
  assert (L1 : (List.length (era_enc (sg_era s)) <= 2)%nat) by (destruct (sg_era s); cbn; lia).
  lia.
Qed.

Section Included.
Context {ME : Type}.
Variable c : chain ME.
Variables (p : extrinsic_params) (v i j n : N) (form : option string) (k : fixed_kind) (name : string) (exts : list ext_meta) (nv : spec_name_version).
Hypothesis acyc : acyclic (ch_types c).
Hypothesis is_params : ch_params c = inl p.
Hypothesis is_call : ch_call c = inl (ep_call p).
Hypothesis is_version : ch_version c = inl v.
Hypothesis low : (v < 128)%N.
Hypothesis is_transfer : transfer_call (ch_types c) (ep_call p) i j name.
Hypothesis is_exts : ch_extensions c = inl exts.
Hypothesis usual : usual_extrinsic (ch_types c) p exts n form k.
Hypothesis is_spec : ch_spec c = inl nv.
Hypothesis byte_i : (i < 256)%N.
Hypothesis byte_j : (j < 256)%N.
Hypothesis byte_n : (n < 256)%N.

Lemma whole h id bs x : h = HNone -> made (ch_types c) h id bs x -> decode_all (ch_types c) bs id = Ok x /\ is_bytes bs.
Proof.
  intros -> (val & He & Hv). split; [|exact (enc_bytes _ _ _ _ _ He)]. apply whole_at. rewrite decode_at_hinted.
  pose proof (hinted_trip _ acyc HNone id val bs x [] [] He Hv ltac:(constructor)) as T. cbn [app List.length Nat.add] in T. rewrite app_nil_r in T. exact T.
Qed.

Lemma included_accepted s g sender signature dest amount : printed_spec_version nv = dec_string (sg_version s) -> proper s ->
  genesis_matches g (sg_genesis s) -> is_bytes sender -> List.length sender = 32%nat ->
  is_bytes signature -> List.length signature = raw_len k ->
  is_bytes dest -> List.length dest = 32%nat -> fits U128 amount = true ->
  let data := included_bytes v sender n signature (extra_bytes s exts) (transfer_bytes i j dest amount) in
  exists a sg e call xs,
    extrinsic_unhidden (UxSigned a sg e call) /\
    (is_bytes ((0%N :: sender) ++ (n :: signature) ++ extra_bytes s exts ++ transfer_bytes i j dest amount) /\
     decode_all (ch_types c) (0%N :: sender) (ep_address p) = Ok a /\ decode_all (ch_types c) (n :: signature) (ep_signature p) = Ok sg /\
     decode_all (ch_types c) (extra_bytes s exts) (ep_extra p) = Ok e /\ PropInclude.is_call c (transfer_bytes i j dest amount) call) /\
    transaction c g (payload (transfer_bytes i j dest amount) (all_extension_bytes s exts)) = Ok (TransactionParsed (inl call) xs) /\
    unchecked_extrinsic c data = Ok (UxSigned a sg e call) /\
    forall b58 icon specs chain_name bits,
      lines_of b58 icon specs chain_name bits a = sender_lines b58 specs sender /\
      lines_of b58 icon specs chain_name bits sg = signature_lines form k signature /\
      lines_of b58 icon specs chain_name bits e = extra_lines specs s exts /\
      lines_of_call b58 icon specs chain_name bits call = transfer_lines b58 specs name dest amount.
Proof.
  intros Hp Hok Hg Hsb Hs32 Hgb Hgl Hb H32 Ha data.
  destruct usual as (Uk & Uaddr & Usig & Utuple & Uexts & Unamed).
  destruct (transfer_accepted c (ep_call p) i j name exts nv acyc is_call is_transfer is_exts Uexts is_spec byte_i byte_j s g dest amount Hp Hok Hg Hb H32 Ha)
    as (call & xs & Hh & _ & Hpb & Ht & _ & Hlines).
  destruct (made_address _ HNone (ep_address p) sender Uaddr Hsb Hs32) as (xa & docs & f & Ma & Xa & Nf & Xf).
  destruct (made_signature _ (ep_signature p) n form k signature Usig byte_n Hgb Hgl) as (xs1 & Ms & Xs).
  destruct (made_extra (ch_types c) s (ep_extra p) exts Utuple) as (xe & Me & He & Le).
  { intros ->. destruct Uexts as (_ & _ & [] & _). }
  { pose proof (proj1 Uexts) as Hall. rewrite Forall_forall in *. intros m Hm. apply usual_put_in; auto. }
  apply (whole HNone _ _ _ eq_refl) in Ma, Ms, Me. destruct Ma as (Ma & Ba), Ms as (Ms & Bs), Me as (Me & Be).
  assert (Hcb : is_bytes (transfer_bytes i j dest amount) /\ is_bytes (all_extension_bytes s exts)).
  { unfold payload in Hpb. apply is_bytes_app in Hpb. destruct Hpb as (_ & Hpb). apply is_bytes_app in Hpb. exact Hpb. }
  assert (Eq : data = signed_extrinsic v (0%N :: sender) (n :: signature) (extra_bytes s exts) (transfer_bytes i j dest amount)).
  { unfold data, included_bytes, signed_extrinsic, PropUnchecked.frame. rewrite (N.add_comm v 128). reflexivity. }
  assert (Hfit : fits U32 (N.of_nat (S (List.length ((0%N :: sender) ++ (n :: signature) ++ extra_bytes s exts ++ transfer_bytes i j dest amount)))) = true).
  { apply (small_fits _ 1000); [|reflexivity]. rewrite !app_length. pose proof (extra_short _ s exts Hok Uexts) as L1.
    unfold transfer_bytes. cbn [List.length]. rewrite app_length, Hs32, H32, Hgl.
    pose proof (ProofCompact.compact_enc_length U128 amount Ha) as L2. assert (L3 : (raw_len k <= 100)%nat) by (destruct k; cbn; lia). lia. }
  assert (Hall : is_bytes ((0%N :: sender) ++ (n :: signature) ++ extra_bytes s exts ++ transfer_bytes i j dest amount)).
  { unfold is_bytes in *. rewrite !Forall_app. repeat split; tauto. }
  assert (Hu : unchecked_extrinsic c data = Ok (UxSigned xa xs1 xe call)).
  { rewrite Eq. apply (c69_signed_is_included ME c p v g (all_extension_bytes s exts) (TransactionParsed (inl call) xs)); try assumption; try tauto; try reflexivity.
    unfold PropUnchecked.frame. rewrite <- app_assoc. exact Ht. }
  exists xa, xs1, xe, call, xs. split; [|split; [|split; [exact Ht|split; [exact Hu|] ] ] ].
  - cbn [extrinsic_unhidden]. rewrite Xa. split; [|split; [|split; [exact He|exact Hh] ] ].
    + unfold nothing_hidden. cbn [everywhere vd_fields]. rewrite Xf. repeat split.
    + exact (proj1 (signature_shown _ _ _ _ Uk Xs)).
  - split; [exact Hall|]. split; [exact Ma|]. split; [exact Ms|]. split; [exact Me|].
    refine (proj1 (c69_signing ME c g _ (all_extension_bytes s exts) (TransactionParsed (inl call) xs) call _ _ _) eq_refl).
    + apply (fits_less _ _ _) with (2 := Hfit). rewrite !app_length. lia.
    + apply is_bytes_app. exact Hcb.
    + unfold PropUnchecked.frame. rewrite <- app_assoc. exact Ht.
  - intros b58 icon specs cn bits. unfold lines_of, lines_of_call. split; [|split; [|split; [apply Le|apply Hlines] ] ].
    + unfold card_ext, card_ext_with. rewrite Xa. cbn [card vd_fields vd_name vd_docs card_variant_fields]. rewrite Nf. unfold card_unnamed_single_field. rewrite Xf. reflexivity.
    + unfold card_ext, card_ext_with. apply (proj2 (signature_shown _ _ _ _ Uk Xs)).
Qed.
End Included.

(** ** The theorems *)

(** Whoever signs a transfer sees it; and once it is in a block, everybody sees the same call, the
    sender, the signature and the extensions. *)
Theorem c77_included : forall ME (c : chain ME) p v i j n form k name exts nv s g sender signature dest amount,
  acyclic (ch_types c) -> ch_params c = inl p -> ch_call c = inl (ep_call p) -> ch_version c = inl v -> (v < 128)%N ->
  transfer_call (ch_types c) (ep_call p) i j name -> ch_extensions c = inl exts ->
  usual_extrinsic (ch_types c) p exts n form k -> (i < 256)%N -> (j < 256)%N -> (n < 256)%N ->
  ch_spec c = inl nv -> printed_spec_version nv = dec_string (sg_version s) ->
  proper s -> g = None \/ g = Some (sg_genesis s) ->
  is_bytes sender -> List.length sender = 32%nat -> is_bytes signature -> List.length signature = raw_len k ->
  is_bytes dest -> List.length dest = 32%nat -> (amount < 2 ^ 128)%N ->
  exists a sg e call xs,
    transaction c g (payload (transfer_bytes i j dest amount) (all_extension_bytes s exts)) = Ok (TransactionParsed (inl call) xs) /\
    unchecked_extrinsic c (included_bytes v sender n signature (extra_bytes s exts) (transfer_bytes i j dest amount)) = Ok (UxSigned a sg e call) /\
    forall b58 icon specs chain_name bits,
      map (show bits) (card_ext b58 icon specs chain_name a 0 true) = sender_lines b58 specs sender /\
      map (show bits) (card_ext b58 icon specs chain_name sg 0 true) = signature_lines form k signature /\
      map (show bits) (card_ext b58 icon specs chain_name e 0 true) = extra_lines specs s exts /\
      map (show bits) (card_call b58 icon specs chain_name call 0) = transfer_lines b58 specs name dest amount.
Proof.
  intros ME c p v i j n form k name exts nv s g sender signature dest amount H1 H2 H3 H4 H5 H6 H7 H8 H9 H10 H11 H12 H13 H14 Hg H15 H16 H17 H18 H19 H20 H21.
  destruct (included_accepted c p v i j n form k name exts nv H1 H2 H3 H4 H5 H6 H7 H8 H12 H9 H10 H11 s g sender signature dest amount H13 H14)
    as (a & sg & e & call & xs & _ & _ & T & U & L); try assumption;
    [destruct Hg as [-> | ->]; [exact I|reflexivity]|apply N.ltb_lt; exact H21|].
  exists a, sg, e, call, xs. split; [exact T|]. split; [exact U|]. exact L.
Qed.
Print Assumptions c77_included.

(** Conversely, an extrinsic shown in these lines is this one, byte by byte, except that bytes may
    follow the call, within the announced length (C32). *)
Theorem c77_only_included : forall ME (c : chain ME) p v i j n form k name exts nv s sender signature dest amount,
  acyclic (ch_types c) -> ch_params c = inl p -> ch_call c = inl (ep_call p) -> ch_version c = inl v -> (v < 128)%N ->
  transfer_call (ch_types c) (ep_call p) i j name -> ch_extensions c = inl exts ->
  usual_extrinsic (ch_types c) p exts n form k -> (i < 256)%N -> (j < 256)%N -> (n < 256)%N ->
  ch_spec c = inl nv -> printed_spec_version nv = dec_string (sg_version s) ->
  proper s -> 
  is_bytes sender -> List.length sender = 32%nat -> is_bytes signature -> List.length signature = raw_len k ->
  is_bytes dest -> List.length dest = 32%nat -> (amount < 2 ^ 128)%N ->
  told_apart (ch_types c) ->
  forall b58 icon specs chain_name bits data a sg e call,
  base58_faithful b58 -> bits_faithful bits -> (decimals specs < 256)%N -> is_bytes data ->
  unchecked_extrinsic c data = Ok (UxSigned a sg e call) ->
  map (show bits) (card_ext b58 icon specs chain_name a 0 true) = sender_lines b58 specs sender ->
  map (show bits) (card_ext b58 icon specs chain_name sg 0 true) = signature_lines form k signature ->
  map (show bits) (card_ext b58 icon specs chain_name e 0 true) = extra_lines specs s exts ->
  map (show bits) (card_call b58 icon specs chain_name call 0) = transfer_lines b58 specs name dest amount ->
  exists following, data = included_bytes v sender n signature (extra_bytes s exts) (transfer_bytes i j dest amount ++ following).
Proof.
  intros ME c p v i j n form k name exts nv s sender signature dest amount H1 H2 H3 H4 H5 H6 H7 H8 H9 H10 H11 H12 H13 H14 H15 H16 H17 H18 H19 H20 H21 Hap
    b58 icon specs cn bits data a sg e call F1 F2 Hd Hdata U L1 L2 L3 L4.
  destruct (included_accepted c p v i j n form k name exts nv H1 H2 H3 H4 H5 H6 H7 H8 H12 H9 H10 H11 s None sender signature dest amount H13 H14)
    as (a' & sg' & e' & call' & xs & Hh & Hb & _ & U' & L); try assumption; [exact I|apply N.ltb_lt; exact H21|].
  destruct (L b58 icon specs cn bits) as (M1 & M2 & M3 & M4).
  destruct Hb as (Hb & D1 & D2 & D3 & D4).
  destruct (c77_parts b58 icon specs cn bits ME c p v _ _ _ _ _ _ _ _ data a sg e call F1 F2 Hd Hap Hdata Hb H2 H3 H4 D1 D2 D3 D4 Hh U) as (following & E).
  { cbn [extrinsic_lines]. rewrite M1, M2, M3, M4. unfold lines_of, lines_of_call. rewrite L1, L2, L3, L4. reflexivity. }
  exists following. rewrite E. unfold signed_extrinsic, PropUnchecked.frame, included_bytes. rewrite (N.add_comm v 128). reflexivity.
Qed.
Print Assumptions c77_only_included.
