(** Errors are about the place they name (C60): whole runs. *)
From Coq Require Import Lia ZifyBool ZifyNat ZifyN.
From Verif Require Import Base Compact Types Indicators Decode Spec Api ProofBase ProofSafe ProofCompact ProofCor ProofFirm PropDecode.
Local Open Scope list_scope.

Lemma decode_at_firm types D1 D2 id pos : is_bytes D1 -> is_bytes D2 -> D1 <> D2 -> (pos <= List.length D1)%nat ->
  match decode_at types D1 id pos with
  | (Ok a, q) => (pos <= q <= List.length D1)%nat
  | (Err x, q) => (pos <= q <= List.length D1)%nat /\ told D1 pos x /\ (same D1 D2 x q -> fst (decode_at types D2 id pos) = Err x)
  | _ => True
  end.
Proof.
  intros H1 H2 Hne Hp. unfold decode_at.
  set (f := Nat.max (decode_fuel (@slice_buffer unit D1) (portable types)) (decode_fuel (@slice_buffer unit D2) (portable types))).
  destruct (depth_bound (slice_buffer D1) (portable types) (proj1 (slices_are_good unit D1)) (portable_is_good unit types) id pos tt f) as [_ E1].
  { unfold f, decode_fuel. apply Nat.le_max_l. }
  destruct (depth_bound (slice_buffer D2) (portable types) (proj1 (slices_are_good unit D2)) (portable_is_good unit types) id pos tt f) as [_ E2].
  { unfold f, decode_fuel. apply Nat.le_max_r. }
  rewrite <- E1, <- E2. pose proof (decode_firm types D1 D2 H1 H2 Hne (E := unit) f (Symbol id) propagated_new pos Hp tt) as H.
  destruct (decode (slice_buffer D1) (portable types) f (Symbol id) propagated_new pos tt) as [[[a|x| |] q] e1]; try exact I.
  - exact (proj1 H).
  - destruct H as (Ha & Hb & Hc). split; [exact Ha|]. split; [exact Hb|]. intros Hs. destruct (Hc Hs) as (_ & _ & q' & e' & ->). reflexivity.
Qed.

Lemma some_other (D : bytes) : is_bytes D -> exists D2, is_bytes D2 /\ D <> D2.
Proof.
  intros H. exists (0%N :: D). split; [constructor; [reflexivity|exact H]|]. intros He. apply (f_equal (@List.length N)) in He. cbn in He. lia.
Qed.

Theorem error_true types data id pos x q : is_bytes data -> (pos <= List.length data)%nat ->
  decode_at types data id pos = (Err x, q) ->
  (pos <= q <= List.length data)%nat /\ told data pos x.
Proof.
  intros Hb Hp H. destruct (some_other data Hb) as (D2 & H2 & Hne).
  pose proof (decode_at_firm types data D2 id pos Hb H2 Hne Hp) as F. rewrite H in F. split; apply F.
Qed.

Lemma decided types data data' id pos x q : is_bytes data -> is_bytes data' -> (pos <= List.length data)%nat ->
  decode_at types data id pos = (Err x, q) -> (data <> data' -> same data data' x q) -> fst (decode_at types data' id pos) = Err x.
Proof.
  intros Hb Hb' Hp H Hs. destruct (list_eq_dec N.eq_dec data data') as [<-|Hne]; [rewrite H; reflexivity|].
  pose proof (decode_at_firm types data data' id pos Hb Hb' Hne Hp) as F. rewrite H in F. apply F, Hs, Hne.
Qed.

Lemma agree_firstn (d d' : bytes) k : (k <= List.length d)%nat -> firstn k d' = firstn k d -> agree d d' k.
Proof.
  intros H He. split; [exact H|]. split; [|congruence]. apply (f_equal (@List.length N)) in He. rewrite !firstn_length in He. lia.
Qed.

Lemma agree_app (d more : bytes) : agree d (d ++ more) (List.length d).
Proof. apply agree_firstn; [lia|]. rewrite firstn_app_exact, firstn_all. reflexivity. Qed.

Theorem enum_decided types data data' id pos at_p q : is_bytes data -> is_bytes data' -> (pos <= List.length data)%nat ->
  decode_at types data id pos = (Err (UnexpectedEnumVariant at_p), q) ->
  firstn (at_p + 1) data' = firstn (at_p + 1) data ->
  fst (decode_at types data' id pos) = Err (UnexpectedEnumVariant at_p).
Proof.
  intros Hb Hb' Hp H He. apply (decided types data data' id pos _ q Hb Hb' Hp H). intros _. cbn [same]. apply agree_firstn; [|exact He].
  destruct (error_true _ _ _ _ _ _ Hb Hp H) as [_ Ht]. cbn [told] in Ht. lia.
Qed.

Theorem registry_decided types data data' id pos y q : is_bytes data -> is_bytes data' -> (pos <= List.length data)%nat ->
  decode_at types data id pos = (Err (PRegistry y), q) ->
  firstn q data' = firstn q data ->
  fst (decode_at types data' id pos) = Err (PRegistry y).
Proof.
  intros Hb Hb' Hp H He. apply (decided types data data' id pos _ q Hb Hb' Hp H). intros _.
  destruct (error_true _ _ _ _ _ _ Hb Hp H) as [Hq Ht]. destruct y as [n|y]; cbn [told same] in *; [contradiction|]. apply agree_firstn; [lia|exact He].
Qed.

Theorem value_decided types data more id pos at_p name q : is_bytes data -> is_bytes more -> (pos <= List.length data)%nat ->
  decode_at types data id pos = (Err (TypeFailure at_p name), q) ->
  fst (decode_at types (data ++ more) id pos) = Err (TypeFailure at_p name).
Proof.
  intros Hb Hb' Hp H. apply (decided types data (data ++ more) id pos _ q Hb (proj2 (Forall_app _ _ _) (conj Hb Hb')) Hp H). intros _.
  apply agree_app.
Qed.

Theorem short_decided types data more id pos at_p n q : is_bytes data -> is_bytes more -> (pos <= List.length data)%nat ->
  decode_at types data id pos = (Err (PBuffer (DataTooShort at_p n)), q) ->
  (N.of_nat (List.length (data ++ more)) < N.of_nat at_p + n)%N ->
  fst (decode_at types (data ++ more) id pos) = Err (PBuffer (DataTooShort at_p n)).
Proof.
  intros Hb Hb' Hp H Hl. apply (decided types data (data ++ more) id pos _ q Hb (proj2 (Forall_app _ _ _) (conj Hb Hb')) Hp H). intros _.
  split; [apply agree_app|exact Hl].
Qed.

Theorem compact_decided types data data' id pos at_p q : is_bytes data -> is_bytes data' -> (pos <= List.length data)%nat ->
  decode_at types data id pos = (Err (NoCompact at_p), q) ->
  (at_p + 17 <= List.length data)%nat -> firstn (at_p + 17) data' = firstn (at_p + 17) data ->
  fst (decode_at types data' id pos) = Err (NoCompact at_p).
Proof.
  intros Hb Hb' Hp H Hl He. apply (decided types data data' id pos _ q Hb Hb' Hp H). intros _. cbn [same]. apply agree_firstn; auto.
Qed.

Theorem cut_reported types data more id pos x q : is_bytes (data ++ more) -> (pos <= List.length data)%nat ->
  decode_at types (data ++ more) id pos = (Ok x, q) -> (List.length data < q)%nat ->
  exists y q', decode_at types data id pos = (Err y, q') /\
    ((exists at_p n, y = PBuffer (DataTooShort at_p n) /\ (N.of_nat (List.length data) < N.of_nat at_p + n <= N.of_nat q)%N) \/
     exists at_p, y = NoCompact at_p /\ (at_p <= List.length data < at_p + 17)%nat).
Proof.
  intros Hb Hp H Hq. pose proof (proj1 (Forall_app _ _ _) Hb) as [Hb1 Hb2].
  assert (Hlq : (q <= List.length (data ++ more))%nat).
  { destruct (some_other _ Hb) as (D2 & H2 & Hne).
    pose proof (decode_at_firm types _ D2 id pos Hb H2 Hne ltac:(rewrite app_length; lia)) as F. rewrite H in F. apply F. }
  destruct (c07_cut_fails types (data ++ more) id pos x q (List.length data) Hb H ltac:(lia) Hq) as (y & q' & Hy).
  rewrite firstn_app_exact in Hy. exists y, q'. split; [exact Hy|].
  (* the same with just the bytes used *)
  set (more' := firstn (q - List.length data) more).
  assert (Hd : data ++ more' = firstn q (data ++ more)).
  { rewrite firstn_app. rewrite (firstn_all2 data) by lia. reflexivity. }
  assert (Hb3 : is_bytes more'). { apply Forall_forall. intros z Hz. unfold more' in Hz. apply (proj1 (Forall_forall _ _) Hb2). rewrite <- (firstn_skipn (q - List.length data) more). apply in_or_app. auto. }
  assert (Hlen : List.length (data ++ more') = q). { rewrite Hd, firstn_length. lia. }
  assert (Hok : decode_at types (data ++ more') id pos = (Ok x, q)).
  { pose proof (c06_locality types (data ++ more) id pos x q (firstn pos (data ++ more)) [] Hb) as L.
    rewrite app_nil_r in L. specialize (L (proj1 (proj1 (Forall_app _ _ _) (eq_ind_r is_bytes Hb (firstn_skipn pos (data ++ more))))) H).
    rewrite app_nil_r in L. rewrite firstn_length, Nat.min_l in L by lia.
    replace (pos + (q - pos))%nat with q in L by lia. rewrite Hd. rewrite <- L. f_equal.
    rewrite <- (firstn_skipn pos (firstn q (data ++ more))). rewrite firstn_firstn, Nat.min_l by lia. f_equal.
    unfold slice. rewrite firstn_skipn_comm. f_equal. f_equal. lia. }
  destruct (error_true _ _ _ _ _ _ Hb1 Hp Hy) as [Hqq Ht].
  assert (Hbm : is_bytes (data ++ more')) by (apply Forall_app; auto).
  destruct y as [y|y|at_p|from|at_p name|at_p]; cbn [told] in Ht.
  - destruct y as [ |at_p n| ]; try contradiction. left. exists at_p, n. split; [reflexivity|]. split; [lia|].
    destruct (N.le_gt_cases (N.of_nat at_p + n) (N.of_nat q)) as [Hle|Hgt]; [exact Hle|]. exfalso.
    pose proof (short_decided types data more' id pos at_p n q' Hb1 Hb3 Hp Hy ltac:(lia)) as F. rewrite Hok in F. discriminate.
  - exfalso. pose proof (registry_decided types data (data ++ more') id pos y q' Hb1 Hbm Hp Hy) as F. rewrite Hok in F.
    assert (HF : firstn q' (data ++ more') = firstn q' data).
    { rewrite firstn_app. replace (q' - List.length data)%nat with 0%nat by lia. rewrite firstn_O. apply app_nil_r. }
    specialize (F HF). discriminate.
  - right. exists at_p. split; [reflexivity|]. split; [lia|]. destruct (Nat.le_gt_cases (at_p + 17) (List.length data)) as [Hle|Hgt]; [|exact Hgt]. exfalso.
    pose proof (compact_decided types data (data ++ more') id pos at_p q' Hb1 Hbm Hp Hy Hle) as F. rewrite Hok in F.
    assert (HF : firstn (at_p + 17) (data ++ more') = firstn (at_p + 17) data).
    { rewrite firstn_app. replace (at_p + 17 - List.length data)%nat with 0%nat by lia. rewrite firstn_O. apply app_nil_r. }
    specialize (F HF). discriminate.
  - contradiction.
  - exfalso. pose proof (value_decided types data more' id pos at_p name q' Hb1 Hb3 Hp Hy) as F. rewrite Hok in F. discriminate.
  - exfalso. pose proof (enum_decided types data (data ++ more') id pos at_p q' Hb1 Hbm Hp Hy) as F. rewrite Hok in F.
    assert (HF : firstn (at_p + 1) (data ++ more') = firstn (at_p + 1) data).
    { rewrite firstn_app. replace (at_p + 1 - List.length data)%nat with 0%nat by lia. rewrite firstn_O. apply app_nil_r. }
    specialize (F HF). discriminate.
Qed.
