(** Unchecked extrinsics: proofs (C30-C32). *)
From Coq Require Import Lia ZifyBool ZifyNat ZifyN.
From Verif Require Import Base Compact Types Indicators Decode Sign Unchecked Spec SpecWf SpecUnchecked ProofBase ProofCompact ProofLeaf ProofSpec
  SpecSource ProofSafe ProofSafe2 ProofWf ProofCor ProofSign ProofSign2 Api ApiSign.
Local Open Scope list_scope.

Lemma land_127 b : (N.land b 127 = b mod 128)%N.
Proof. change 127%N with (N.ones 7). rewrite N.land_ones. reflexivity. Qed.

Lemma land_128 b : (b < 256)%N -> (N.land b 128 =? 0)%N = negb (128 <=? b)%N.
Proof.
  intros Hb. assert (H : forallb (fun n => Bool.eqb (N.land (N.of_nat n) 128 =? 0)%N (negb (128 <=? N.of_nat n)%N)) (seq 0 256) = true)
    by (vm_compute; reflexivity).
  rewrite forallb_forall in H. specialize (H (N.to_nat b)). rewrite N2Nat.id in H.
  apply Bool.eqb_prop, H, in_seq. lia.
Qed.

Lemma compact_enc_bytes n : fits U32 n = true -> is_bytes (compact_enc n).
Proof.
  intros H. apply compact_enc_is_bytes. unfold fits in H. apply N.ltb_lt in H. eapply N.lt_trans; [exact H|]. vm_compute. reflexivity.
Qed.

Section Proof.
Context {ME : Type}.
Variable c : chain ME.
Local Notation types := (ch_types c).

Lemma decode_pos_eq data id p : decode_as_type_at_position (@slice_buffer unit data) (portable types) id p tt
  = (decode_at types data id p, tt).
Proof.
  unfold decode_at. destruct (decode_as_type_at_position _ _ _ _ _) as [[o q] []]. reflexivity.
Qed.

Lemma decode_cases data id p : (exists x q, decode_at types data id p = (Ok x, q)) \/ exists y q, decode_at types data id p = (Err y, q).
Proof.
  pose proof (hinted_returns types HNone data id p) as Hr. rewrite <- decode_at_hinted in Hr.
  destruct (decode_at types data id p) as [o q]. cbn [fst] in Hr. destruct Hr as [(x & ->)|(y & ->)]; eauto.
Qed.

Lemma framed_unique data c1 c2 : framed data c1 -> framed data c2 -> c1 = c2.
Proof.
  intros [H1 H2] [H3 H4].
  assert (Hn : N.of_nat (List.length c1) = N.of_nat (List.length c2)).
  { assert (Hx : compact_decode U32 (compact_enc (N.of_nat (List.length c1)) ++ c1) =
      compact_decode U32 (compact_enc (N.of_nat (List.length c2)) ++ c2)) by congruence.
    rewrite !compact_decode_enc in Hx by assumption. congruence. }
  rewrite Hn in H2. rewrite H2 in H4. apply app_inv_head in H4. exact H4.
Qed.

Lemma prefix_unique n n' (post post' : bytes) : fits U32 n = true -> fits U32 n' = true ->
  compact_enc n ++ post = compact_enc n' ++ post' -> n = n' /\ post = post'.
Proof.
  intros H1 H2 H. assert (Hn : n = n').
  { assert (Hx : compact_decode U32 (compact_enc n ++ post) = compact_decode U32 (compact_enc n' ++ post')) by congruence.
    rewrite !compact_decode_enc in Hx by assumption. congruence. }
  subst n'. split; [reflexivity|]. apply app_inv_head in H. exact H.
Qed.

Theorem unchecked_ok data : is_bytes data -> unchecked_answer c data (unchecked_extrinsic c data).
Proof.
  intros Hb. unfold unchecked_extrinsic, result, decode_as_unchecked_extrinsic, bind at 1, at_local, decode_unchecked_body.
  cbn [chain_metadata m_types m_extrinsic_type_params m_extrinsic_version].
  destruct (ch_params c) as [params|x] eqn:Hp.
  2: { cbn. apply UA_params, Hp. }
  unfold bind at 1, map_err at 1, lift at 1, ret at 1. unfold bind at 1, map_err at 1.
  destruct (compact_canonical unit U32 data 0 tt Hb) as [(n & post & Hs & Hf & -> & Hlen)|(Hno & x & -> & _)].
  2: { cbn. eapply UA_no_compact; eauto. intros n post Hf Hd. specialize (Hno n post Hd). congruence. }
  cbn [skipn] in Hs. rewrite Nat.add_0_l. unfold bind at 1, get_pos at 1. cbn [total_len slice_buffer].
  assert (Hdl : List.length data = (List.length (compact_enc n) + List.length post)%nat) by (rewrite Hs, app_length; reflexivity).
  cbv zeta. destruct (N.of_nat (List.length data) <? N.of_nat (List.length (compact_enc n)) + n)%N eqn:H1.
  { cbn. replace (N.of_nat (List.length (compact_enc n)) + n - N.of_nat (List.length data))%N
      with (n - N.of_nat (List.length post))%N by lia. eapply UA_short; eauto. lia. }
  destruct (N.of_nat (List.length (compact_enc n)) + n <? N.of_nat (List.length data))%N eqn:H2.
  { cbn. replace (N.to_nat (N.of_nat (List.length (compact_enc n)) + n))
      with (List.length (compact_enc n) + N.to_nat n)%nat by lia. eapply UA_long; eauto. lia. }
  assert (Hn : n = N.of_nat (List.length post)) by lia.
  assert (Hfr : framed data post) by (subst n; split; assumption).
  unfold bind at 1, map_err at 1, read_byte, bind at 1, read_slice. cbn [rd slice_buffer]. unfold slice_rd.
  replace (List.length data <? List.length (compact_enc n))%nat with false by lia.
  destruct post as [|b rest].
  { replace (N.of_nat (List.length data) <? N.of_nat (List.length (compact_enc n)) + 1)%N with true by (cbn [List.length] in Hdl; lia).
    cbn. replace (List.length (compact_enc n)) with (List.length data) by (cbn [List.length] in Hdl; lia). eapply UA_empty; eauto. }
  replace (N.of_nat (List.length data) <? N.of_nat (List.length (compact_enc n)) + 1)%N with false by (cbn [List.length] in Hdl; lia).
  replace (slice data (List.length (compact_enc n)) (N.to_nat 1)) with [b].
  2: { rewrite Hs. unfold slice. rewrite skipn_app_exact. reflexivity. }
  unfold ret at 1. unfold bind at 1, set_pos at 1.
  assert (Hst : (List.length (compact_enc n) + VERSION_LENGTH = List.length data - List.length rest)%nat)
    by (cbn [List.length] in Hdl; unfold VERSION_LENGTH; lia).
  rewrite Hst.
  assert (Hb256 : (b < 256)%N).
  { rewrite Hs in Hb. apply is_bytes_app in Hb. destruct Hb as [_ Hb]. inversion Hb as [|? ? Hx _]; exact Hx. }
  unfold bind at 1, map_err at 1. destruct (ch_version c) as [v|x] eqn:Hv.
  2: { cbn. eapply UA_no_version; eauto. }
  unfold lift, ret at 1. unfold VERSION_MASK, VERSION_MASK_NEG. rewrite land_127, land_128 by exact Hb256.
  destruct (negb (b mod 128 =? v)%N) eqn:Hvm.
  { cbn. eapply UA_version; eauto. lia. }
  assert (Hbv : (b mod 128 = v)%N) by lia.
  generalize (List.length data - List.length rest)%nat, Hst. intros st0 Hst0.
  assert (Hst1 : st0 = (List.length data - List.length rest)%nat) by lia. clear Hst0.
  destruct (128 <=? b)%N eqn:Hsg; cbn [negb].
  - unfold bind at 1, map_err at 1. rewrite decode_pos_eq.
    destruct (decode_cases data (ep_address params) st0) as [(xa & qa & Ha)|(y & q & Ha)]; rewrite Ha.
    2: { cbn. eapply UA_undecodable; eauto. rewrite Hsg, <- Hst1. eapply IT_here, Ha. }
    unfold bind at 1, map_err at 1. rewrite decode_pos_eq.
    destruct (decode_cases data (ep_signature params) qa) as [(xs & qs & Hsi)|(y & q & Hsi)]; rewrite Hsi.
    2: { cbn. eapply UA_undecodable; eauto. rewrite Hsg, <- Hst1. eapply IT_later; [exact Ha|]. eapply IT_here, Hsi. }
    unfold bind at 1, map_err at 1. rewrite decode_pos_eq.
    destruct (decode_cases data (ep_extra params) qs) as [(xe & qe & He)|(y & q & He)]; rewrite He.
    2: { cbn. eapply UA_undecodable; eauto. rewrite Hsg, <- Hst1. eapply IT_later; [exact Ha|]. eapply IT_later; [exact Hsi|]. eapply IT_here, He. }
    unfold bind at 1, map_err at 1. rewrite decode_pos_eq.
    destruct (decode_cases data (ep_call params) qe) as [(xc & qc & Hc)|(y & q & Hc)]; rewrite Hc.
    2: { cbn. eapply UA_undecodable; eauto. rewrite Hsg, <- Hst1. eapply IT_later; [exact Ha|]. eapply IT_later; [exact Hsi|].
         eapply IT_later; [exact He|]. eapply IT_here, Hc. }
    assert (Hturn : in_turn c data (order (128 <=? b)%N params) (List.length data - List.length rest) (inl ([xa; xs; xe; xc], qc))).
    { rewrite Hsg, <- Hst1. eapply IT_cons; [exact Ha|]. eapply IT_cons; [exact Hsi|]. eapply IT_cons; [exact He|]. eapply IT_cons; [exact Hc|]. constructor. }
    destruct (x_data xc) eqn:Hx;
      try (cbn; eapply (UA_not_a_call c data) with (xs := [xa; xs; xe]); [eassumption..|exact Hturn|intros ?; rewrite Hx; discriminate]).
    cbn. eapply UA_parsed; eauto. constructor. exact Hx.
  - unfold bind at 1, map_err at 1. rewrite decode_pos_eq.
    destruct (decode_cases data (ep_call params) st0) as [(xc & qc & Hc)|(y & q & Hc)]; rewrite Hc.
    2: { cbn. eapply UA_undecodable; eauto. rewrite Hsg, <- Hst1. eapply IT_here, Hc. }
    assert (Hturn : in_turn c data (order (128 <=? b)%N params) (List.length data - List.length rest) (inl ([xc], qc))).
    { rewrite Hsg, <- Hst1. eapply IT_cons; [exact Hc|]. constructor. }
    destruct (x_data xc) eqn:Hx;
      try (cbn; eapply (UA_not_a_call c data) with (xs := []); [eassumption..|exact Hturn|intros ?; rewrite Hx; discriminate]).
    cbn. eapply UA_parsed; eauto. constructor. exact Hx.
Qed.

Lemma turn_unique data l : forall p r1 r2, in_turn c data l p r1 -> in_turn c data l p r2 -> r1 = r2.
Proof.
  induction l as [|id l IH]; intros p r1 r2 H1 H2; inversion H1; subst; inversion H2; subst; try reflexivity; try congruence;
    match goal with A : decode_at types data id p = _, B : decode_at types data id p = _ |- _ => rewrite A in B; try discriminate; injection B as <- <- end;
    match goal with A : in_turn c data l _ _, B : in_turn c data l _ _ |- _ => pose proof (IH _ _ _ A B) end; congruence.
Qed.

Lemma shape_last xs x u : shape (xs ++ [x]) u -> exists d, x_data x = DCall d.
Proof.
  intros H. inversion H as [y d Hd He|a s e y d Hd He].
  - destruct xs as [|? [|]]; try discriminate. injection He as ->. eauto.
  - destruct xs as [|? [|? [|? [|? [|]]]]]; try discriminate; injection He; intros; subst; eauto.
Qed.

Lemma shape_unique xs u1 u2 : shape xs u1 -> shape xs u2 -> u1 = u2.
Proof. intros H1 H2. inversion H1; subst; inversion H2; subst; congruence. Qed.

Theorem unchecked_unique data o1 o2 : unchecked_answer c data o1 -> unchecked_answer c data o2 -> o1 = o2.
Proof.
  assert (Hfr : forall content, framed data content -> exists n, fits U32 n = true /\ data = compact_enc n ++ content /\ N.of_nat (List.length content) = n).
  { intros content [H1 H2]. eauto. }
  intros H1 H2. destruct H1; destruct H2; try congruence;
    repeat match goal with A : framed data _ |- _ =>
      let n := fresh "n" in let F := fresh "F" in let D := fresh "D" in let L := fresh "L" in
      pose proof (Hfr _ A) as (n & F & D & L); revert A end; intros;
    try (exfalso; match goal with A : forall n post, _ -> data <> _, B : data = _ |- _ => eapply A; [|exact B]; assumption end);
    repeat match goal with A : data = compact_enc ?n ++ ?p, B : data = compact_enc ?m ++ ?q |- _ =>
      lazymatch goal with Z : n = m /\ p = q |- _ => fail | _ =>
      assert (n = m /\ p = q) by (apply prefix_unique; [assumption|assumption|congruence]) end end;
    repeat match goal with A : _ /\ _ |- _ => destruct A end; subst; try lia; try congruence;
    repeat match goal with A : _ :: _ = _ :: _ |- _ => injection A as ? ?; subst end; try congruence; try discriminate;
    match goal with A : ch_params c = inl ?p, B : ch_params c = inl ?q |- _ => assert (p = q) by congruence; subst end;
    match goal with A : in_turn _ _ _ _ _, B : in_turn _ _ _ _ _ |- _ => pose proof (turn_unique _ _ _ _ _ A B) as Ht end;
    try discriminate; injection Ht; intros; subst; try congruence;
    try (match goal with A : shape (_ ++ _) _ |- _ => apply shape_last in A; destruct A end; exfalso; eauto);
    try (f_equal; eapply shape_unique; eassumption).
  all: match goal with A : forall d, x_data ?x <> DCall d, B : x_data ?x = DCall ?d |- _ => exact (A d B) end.
Qed.

Lemma parsed_turn data u : is_bytes data -> unchecked_extrinsic c data = Ok u -> exists p b rest v xs q,
  ch_params c = inl p /\ framed data (b :: rest) /\ ch_version c = inl v /\ (b mod 128 = v)%N /\
  in_turn c data (order (128 <=? b)%N p) (List.length data - List.length rest) (inl (xs, q)) /\ shape xs u.
Proof.
  intros Hb H. pose proof (unchecked_ok data Hb) as Ha. rewrite H in Ha. inversion Ha; subst.
  do 6 eexists. repeat split; eauto; match goal with A : framed _ _ |- _ => apply A end.
Qed.

Lemma turn_parsed data u p b rest v xs q : is_bytes data ->
  ch_params c = inl p -> framed data (b :: rest) -> ch_version c = inl v -> (b mod 128 = v)%N ->
  in_turn c data (order (128 <=? b)%N p) (List.length data - List.length rest) (inl (xs, q)) -> shape xs u ->
  unchecked_extrinsic c data = Ok u.
Proof.
  intros Hb H1 H2 H3 H4 H5 H6. eapply unchecked_unique; [apply unchecked_ok, Hb|]. eapply UA_parsed; eauto.
Qed.

Lemma decode_bounds data id p x q : (p <= List.length data)%nat -> decode_at types data id p = (Ok x, q) ->
  (p <= q <= List.length data)%nat.
Proof.
  intros Hp H. pose proof (decode_pos_eq data id p) as He. rewrite H in He.
  exact (position_bounds _ _ (good_slice data) (good_portable types) _ _ _ _ _ _ He Hp).
Qed.

Lemma turn_bounds data l : forall p xs q, in_turn c data l p (inl (xs, q)) -> (p <= List.length data)%nat ->
  (p <= q <= List.length data)%nat.
Proof.
  induction l as [|id l IH]; intros p xs q H Hp; inversion H; subst; [lia|].
  match goal with A : decode_at _ _ _ _ = _ |- _ => apply decode_bounds in A; [|exact Hp] end.
  match goal with A : in_turn _ _ _ _ _ |- _ => apply IH in A; lia end.
Qed.

(** Decoding in turn depends only on the bytes it goes over. *)
Lemma turn_local data l : is_bytes data -> forall p xs q pre post, (p <= List.length data)%nat -> is_bytes (pre ++ post) ->
  in_turn c data l p (inl (xs, q)) ->
  in_turn c (pre ++ slice data p (q - p) ++ post) l (List.length pre) (inl (xs, (List.length pre + (q - p))%nat)).
Proof.
  intros Hb. induction l as [|id l IH]; intros p xs q pre post Hp Hpp H; inversion H; subst.
  - rewrite Nat.sub_diag, Nat.add_0_r. constructor.
  - match goal with A : decode_at _ _ _ _ = (Ok ?x', ?q1') |- _ => rename A into Hd; rename q1' into q1; rename x' into x1 end.
    match goal with A : in_turn _ _ _ _ _, B : in_turn _ _ _ q1 _ |- _ => rename B into Ht end.
    pose proof (decode_bounds _ _ _ _ _ Hp Hd) as B1.
    assert (B2 : (q1 <= q <= List.length data)%nat) by (eapply turn_bounds; [exact Ht|lia]).
    assert (Hsl : slice data p (q - p) = slice data p (q1 - p) ++ slice data q1 (q - q1)).
    { unfold slice. replace (q - p)%nat with ((q1 - p) + (q - q1))%nat by lia.
      rewrite <- (firstn_skipn (q1 - p) (skipn p data)) at 1. rewrite firstn_app, firstn_length, skipn_length, !skipn_skipn.
      replace (Nat.min (q1 - p) (List.length data - p)) with (q1 - p)%nat by lia.
      replace ((q1 - p) + p)%nat with q1 by lia. f_equal.
      - rewrite firstn_firstn. f_equal. lia.
      - f_equal. lia. }
    apply is_bytes_app in Hpp. destruct Hpp as [Hb1 Hb2].
    assert (Hbs : forall a n, is_bytes (slice data a n)).
    { intros a n. apply is_bytes_slice, Hb. }
    rewrite Hsl, <- app_assoc.
    eapply IT_cons.
    + apply locality; [exact Hb| |exact Hd]. apply is_bytes_app. split; [exact Hb1|]. apply is_bytes_app. auto.
    + replace (List.length pre + (q1 - p))%nat with (List.length (pre ++ slice data p (q1 - p))).
      2: { rewrite app_length. f_equal. unfold slice. rewrite firstn_length, skipn_length. lia. }
      rewrite app_assoc.
      replace (List.length pre + (q - p))%nat with (List.length (pre ++ slice data p (q1 - p)) + (q - q1))%nat.
      2: { rewrite app_length. unfold slice. rewrite firstn_length, skipn_length. lia. }
      apply IH; [lia| |exact Ht]. apply is_bytes_app. split; [|exact Hb2]. apply is_bytes_app. auto.
Qed.

Lemma firstn_prefix {A} (l : list A) n : exists post, l = firstn n l ++ post.
Proof. exists (skipn n l). symmetry. apply firstn_skipn. Qed.

(** C32 *)
Theorem trailing_ignored content extra u : is_bytes (content ++ extra) ->
  fits U32 (N.of_nat (List.length (content ++ extra))) = true ->
  unchecked_extrinsic c (compact_enc (N.of_nat (List.length content)) ++ content) = Ok u ->
  unchecked_extrinsic c (compact_enc (N.of_nat (List.length (content ++ extra))) ++ content ++ extra) = Ok u.
Proof.
  intros Hb Hf H. assert (Hf0 : fits U32 (N.of_nat (List.length content)) = true).
  { revert Hf. rewrite app_length. unfold fits. lia. }
  assert (Hd : is_bytes (compact_enc (N.of_nat (List.length content)) ++ content)).
  { apply is_bytes_app. split; [eapply compact_enc_bytes; exact Hf0|]. apply is_bytes_app in Hb. apply Hb. }
  apply parsed_turn in H; [|exact Hd]. destruct H as (p & b & rest & v & xs & q & H1 & H2 & H3 & H4 & H5 & H6).
  assert (Hc : content = b :: rest).
  { eapply framed_unique; [|exact H2]. split; [exact Hf0|reflexivity]. }
  assert (Hlen : List.length (compact_enc (N.of_nat (List.length content)) ++ content) = (List.length (compact_enc (N.of_nat (List.length content))) + S (List.length rest))%nat).
  { rewrite app_length, Hc. reflexivity. }
  set (data := compact_enc (N.of_nat (List.length content)) ++ content) in *.
  set (st := (List.length data - List.length rest)%nat) in *.
  assert (Hq : (st <= q <= List.length data)%nat) by (eapply turn_bounds; [exact H5|unfold st; lia]).
  assert (Hsl : slice data st (q - st) = firstn (q - st) rest).
  { unfold slice. f_equal. unfold st, data. rewrite Hc.
    rewrite app_length. cbn [List.length].
    replace (List.length (compact_enc (N.of_nat (S (List.length rest)))) + S (List.length rest) - List.length rest)%nat
      with (List.length (compact_enc (N.of_nat (S (List.length rest))) ++ [b])).
    2: { rewrite app_length. cbn [List.length]. lia. }
    change (b :: rest) with ([b] ++ rest). rewrite app_assoc. apply skipn_app_exact. }
  destruct (firstn_prefix rest (q - st)) as [post Hpost].
  assert (Hbr : is_bytes rest /\ is_bytes extra /\ (b < 256)%N).
  { apply is_bytes_app in Hb. destruct Hb as [Hb1 Hb2]. rewrite Hc in Hb1. inversion Hb1; subst. auto. }
  destruct Hbr as (Hbr & Hbe & Hb256).
  set (data' := compact_enc (N.of_nat (List.length (content ++ extra))) ++ content ++ extra).
  set (pre := compact_enc (N.of_nat (List.length (content ++ extra))) ++ [b]).
  assert (Hpre : is_bytes (pre ++ post ++ extra)).
  { unfold pre. repeat (apply is_bytes_app; split); auto.
    - eapply compact_enc_bytes; exact Hf.
    - constructor; [exact Hb256|constructor].
    - rewrite Hpost in Hbr. apply is_bytes_app in Hbr. apply Hbr. }
  assert (Hd' : data' = pre ++ slice data st (q - st) ++ post ++ extra).
  { unfold data', pre. rewrite Hsl. rewrite Hc at 2. rewrite <- app_assoc. f_equal. cbn [app]. f_equal. rewrite app_assoc. f_equal. exact Hpost. }
  assert (Hfr : framed data' (b :: rest ++ extra)).
  { split; [|unfold data'; rewrite Hc; reflexivity]. rewrite Hc in Hf. exact Hf. }
  eapply turn_parsed.
  - rewrite Hd'. rewrite app_assoc. apply is_bytes_app in Hpre. destruct Hpre. apply is_bytes_app; split; [|assumption].
    apply is_bytes_app. split; [assumption|]. apply is_bytes_slice, Hd.
  - exact H1.
  - exact Hfr.
  - exact H3.
  - exact H4.
  - replace (List.length data' - List.length (rest ++ extra))%nat with (List.length pre).
    2: { unfold data', pre. rewrite Hc. rewrite !app_length. cbn [List.length]. lia. }
    rewrite Hd'. eapply turn_local; [exact Hd|unfold st; lia|exact Hpre|exact H5].
  - exact H6.
Qed.

Lemma turn_cons data id l p xs q : in_turn c data (id :: l) p (inl (xs, q)) -> exists x q1 xs', xs = x :: xs' /\
  decode_at types data id p = (Ok x, q1) /\ in_turn c data l q1 (inl (xs', q)).
Proof. intros H. inversion H; subst. eauto 6. Qed.

(** C30, C31 *)
Theorem unchecked_sound data u : is_bytes data -> unchecked_extrinsic c data = Ok u ->
  exists p v b content rest, ch_params c = inl p /\ ch_version c = inl v /\ framed data (b :: content) /\
    (b mod 128 = v)%N /\ parts types p (128 <=? b)%N content u rest.
Proof.
  intros Hb H. apply parsed_turn in H; [|exact Hb]. destruct H as (p & b & rest & v & xs & q & H1 & H2 & H3 & H4 & H5 & H6).
  assert (Hsk : skipn (List.length data - List.length rest) data = rest).
  { destruct H2 as [_ H2]. rewrite H2 at 2. rewrite H2, app_length. cbn [List.length].
    replace (_ - List.length rest)%nat with (List.length (compact_enc (N.of_nat (S (List.length rest))) ++ [b])).
    2: { rewrite app_length. cbn [List.length]. lia. }
    change (b :: rest) with ([b] ++ rest). rewrite app_assoc. apply skipn_app_exact. }
  assert (Hst : (List.length data - List.length rest <= List.length data)%nat) by lia.
  generalize dependent (List.length data - List.length rest)%nat. intros st H5 Hsk Hst.
  assert (Hstep : forall id pos x q, (pos <= List.length data)%nat -> decode_at types data id pos = (Ok x, q) -> exists v bs,
     enc types false id v = Some bs /\ view types false HNone id v = Some (x_data x, x_info x) /\
     (q <= List.length data)%nat /\ skipn pos data = bs ++ skipn q data).
  { intros id pos x q0 Hp Hd. pose proof (decode_bounds _ _ _ _ _ Hp Hd) as Hbd. apply only_what_is_there in Hd; [|exact Hb].
    destruct Hd as (v0 & He & Hv & _). exists v0, (slice data pos (q0 - pos)). repeat split; auto; [lia|].
    unfold slice. rewrite <- (firstn_skipn (q0 - pos) (skipn pos data)) at 1. f_equal. rewrite skipn_skipn. f_equal. lia. }
  exists p, v, b, rest. 
  destruct (128 <=? b)%N; cbn [order] in H5.
  - apply turn_cons in H5. destruct H5 as (xa & qa & l1 & -> & Da & H5). apply turn_cons in H5. destruct H5 as (xs & qs & l2 & -> & Ds & H5).
    apply turn_cons in H5. destruct H5 as (xe & qe & l3 & -> & De & H5). apply turn_cons in H5. destruct H5 as (xc & qc & l4 & -> & Dc & H5).
    inversion H5; subst. inversion H6; subst.
    apply Hstep in Da; [|exact Hst]. destruct Da as (va & ba & Ea & Va & Qa & Sa).
    apply Hstep in Ds; [|exact Qa]. destruct Ds as (vs & bs & Es & Vs & Qs & Ss).
    apply Hstep in De; [|exact Qs]. destruct De as (ve & be & Ee & Ve & Qe & Se).
    apply Hstep in Dc; [|exact Qe]. destruct Dc as (vc & bc & Ec & Vc & Qc & Sc).
    exists (skipn q data). repeat (split; [first [assumption|reflexivity]|]).
    rewrite Sa, Ss, Se, Sc. eapply UP_signed; eauto.
  - apply turn_cons in H5. destruct H5 as (xc & qc & l4 & -> & Dc & H5).
    inversion H5; subst. inversion H6; subst.
    apply Hstep in Dc; [|exact Hst]. destruct Dc as (vc & bc & Ec & Vc & Qc & Sc).
    exists (skipn q data). repeat (split; [first [assumption|reflexivity]|]).
    rewrite Sc. eapply UP_unsigned; eauto.
Qed.

Theorem unchecked_complete content u rest p b : acyclic types -> is_bytes (b :: content) ->
  ch_params c = inl p -> ch_version c = inl (b mod 128)%N -> parts types p (128 <=? b)%N content u rest ->
  fits U32 (N.of_nat (List.length (b :: content))) = true ->
  unchecked_extrinsic c (compact_enc (N.of_nat (List.length (b :: content))) ++ b :: content) = Ok u.
Proof.
  intros Ha Hb Hp Hv Hpt Hf.
  set (pre := compact_enc (N.of_nat (List.length (b :: content))) ++ [b]).
  assert (Hd : compact_enc (N.of_nat (List.length (b :: content))) ++ b :: content = pre ++ content).
  { unfold pre. rewrite <- app_assoc. reflexivity. }
  assert (Hbp : is_bytes pre).
  { unfold pre. apply is_bytes_app. split; [eapply compact_enc_bytes; exact Hf|]. inversion Hb; subst. constructor; [assumption|constructor]. }
  assert (Hbc : is_bytes content) by (inversion Hb; assumption).
  assert (Hpos : (List.length (pre ++ content) - List.length content = List.length pre)%nat) by (rewrite app_length; lia).
  assert (Hst : forall (pre : bytes) id v bs x post, is_bytes (pre ++ post) -> enc types false id v = Some bs ->
     view types false HNone id v = Some (x_data x, x_info x) ->
     decode_at types (pre ++ bs ++ post) id (List.length pre) = (Ok x, List.length (pre ++ bs))).
  { intros pre0 id v0 bs x post Hbb He Hvv. rewrite app_length. destruct x as [xd xi]. eapply round_trip_acyclic; eauto. }
  assert (Hturn : exists xs q, in_turn c (pre ++ content) (order (128 <=? b)%N p) (List.length pre) (inl (xs, q)) /\ shape xs u).
  { destruct Hpt as [call rest x d vc Ec Vc Hx|address signature extra call rest xa xs xe x d va vs ve vc Ea Va Es Vs Ee Ve Ec Vc Hx]; cbn [order].
    - exists [x]. eexists. split; [|constructor; exact Hx]. eapply IT_cons; [|constructor].
      eapply Hst; eauto. apply is_bytes_app in Hbc. apply is_bytes_app. tauto.
    - exists [xa; xs; xe; x]. eexists. split; [|constructor; exact Hx].
      repeat match type of Hbc with context [is_bytes (_ ++ _)] => rewrite is_bytes_app in Hbc end.
      destruct Hbc as (B1 & B2 & B3 & B4 & B5).
      eapply IT_cons; [eapply Hst; eauto; repeat (rewrite is_bytes_app); tauto|].
      rewrite app_assoc.
      eapply IT_cons; [eapply Hst; eauto; repeat (rewrite is_bytes_app); tauto|].
      rewrite app_assoc.
      eapply IT_cons; [eapply Hst; eauto; repeat (rewrite is_bytes_app); tauto|].
      rewrite app_assoc.
      eapply IT_cons; [eapply Hst; eauto; repeat (rewrite is_bytes_app); tauto|]. constructor. }
  destruct Hturn as (xs & q & Ht & Hsh).
  eapply turn_parsed; [| |split; [exact Hf|reflexivity]| | | |exact Hsh]; eauto.
  - rewrite Hd. apply is_bytes_app. auto.
  - rewrite Hd, Hpos. exact Ht.
Qed.
End Proof.
