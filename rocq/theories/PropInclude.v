(** C69: what is signed is what is included.  The call shown for a transaction to be signed, the
    call shown in an extrinsic (signed or not) made from the same call bytes, and the value of
    those bytes decoded on their own are the same. *)
From Coq Require Import Lia.
From Verif Require Import Base Compact Types Indicators Decode Sign Unchecked Spec SpecWf SpecSign SpecUnchecked
  Api ApiSign ProofBase ProofUnchecked ProofSign2 PropDecode PropSign PropUnchecked Sample SampleChain.
Local Open Scope string_scope.
Local Open Scope list_scope.

(** The bytes on their own are a call of this chain, shown as [d]: `decode_all_as_type` with
    the call type of the metadata takes all of them. *)
Definition is_call {ME} (c : chain ME) (call : bytes) (d : psdata pdata) : Prop :=
  exists id x, ch_call c = inl id /\ decode_all (ch_types c) call id = Ok x /\ x_data x = DCall d.

(** The content of an extrinsic of version [v], and the extrinsic: length first. *)
Definition unsigned_extrinsic (v : N) (call : bytes) : bytes := frame (v :: call).
Definition signed_extrinsic (v : N) (address signature extra call : bytes) : bytes :=
  frame ((v + 128)%N :: address ++ signature ++ extra ++ call).

(** The call in an extrinsic. *)
Definition call_in (u : unchecked) : psdata pdata :=
  match u with UxSigned _ _ _ d => d | UxUnsigned d => d end.

(** ** Proofs *)

Lemma whole_at types part id x : decode_all types part id = Ok x <-> decode_at types part id 0 = (Ok x, List.length part).
Proof.
  pose proof (c14_whole_blob types part id) as H. destruct (decode_at types part id 0) as [[y|y| |] q]; try contradiction.
  - destruct (Nat.eqb_spec q (List.length part)) as [E|E]; rewrite H.
    + rewrite E. split; intros E'; congruence.
    + split; [discriminate|]. intros E'. congruence.
  - rewrite H. split; intros E'; congruence.
Qed.

Lemma part_moves types part id x pre post : is_bytes (pre ++ part ++ post) -> decode_all types part id = Ok x ->
  decode_at types (pre ++ part ++ post) id (List.length pre) = (Ok x, List.length (pre ++ part)).
Proof.
  intros Hb H. apply whole_at in H. unfold is_bytes in Hb. rewrite !Forall_app in Hb. destruct Hb as (H1 & H2 & H3).
  pose proof (c06_locality types part id 0 x (List.length part) pre post H2) as L.
  rewrite Nat.sub_0_r in L. unfold slice in L. cbn [skipn] in L. rewrite firstn_all in L.
  rewrite app_length. apply L; [apply Forall_app; split; assumption|exact H].
Qed.

Lemma transaction_call ME (c : chain ME) g call exts t : fits U32 (N.of_nat (List.length call)) = true ->
  is_bytes (call ++ exts) -> transaction c g (frame call ++ exts) = Ok t ->
  call_outcome c (frame call ++ exts) (List.length (compact_enc (N.of_nat (List.length call)))) (List.length (frame call))
    (match tp_call t with inl d => Ok d | inr x => Err x end).
Proof.
  intros Hf Hb. unfold frame. rewrite <- app_assoc, transaction_eq, (mark_of call exts Hf Hb).
  pose proof (call_answer c (compact_enc (N.of_nat (List.length call)) ++ call ++ exts)
    (Marked (List.length (compact_enc (N.of_nat (List.length call)))) (List.length (compact_enc (N.of_nat (List.length call)) ++ call)))) as Ha.
  cbn [call_start extensions_start] in Ha. specialize (Ha ltac:(rewrite !app_length; lia)).
  destruct (extensions_of _ _ _ _) as [xs| | |]; try discriminate.
  destruct (call_of _ _ _) as [d|x| |]; try discriminate; intros E; injection E as <-; cbn [tp_call];
    exact Ha.
Qed.

Lemma firstn_frame call exts : firstn (List.length (frame call)) (frame call ++ exts) = frame call.
Proof. rewrite firstn_app, Nat.sub_diag, firstn_O, app_nil_r. apply firstn_all. Qed.

Lemma fits_less w n m : (m <= n)%nat -> fits w (N.of_nat n) = true -> fits w (N.of_nat m) = true.
Proof. unfold fits. rewrite !N.ltb_lt. intros H1 H2. eapply N.le_lt_trans; [|exact H2]. lia. Qed.

Lemma frame_rest call : (List.length (frame call) - List.length (compact_enc (N.of_nat (List.length call))))%nat = List.length call.
Proof. unfold frame. rewrite app_length. lia. Qed.

Lemma slice_frame call : slice (frame call) (List.length (compact_enc (N.of_nat (List.length call))))
  (List.length (frame call) - List.length (compact_enc (N.of_nat (List.length call)))) = call.
Proof.
  rewrite frame_rest. unfold frame, slice. rewrite skipn_app, Nat.sub_diag, skipn_all. apply firstn_all.
Qed.

Lemma frame_bytes l : fits U32 (N.of_nat (List.length l)) = true -> is_bytes l -> is_bytes (frame l).
Proof. intros Hf Hb. apply is_bytes_app. split; [apply compact_enc_bytes, Hf|exact Hb]. Qed.

(** ** Statements *)

(** Signing: the call is shown exactly if its bytes on their own are a call, and as that call;
    whatever extensions follow. *)
Theorem c69_signing : forall ME (c : chain ME) g call exts t d, fits U32 (N.of_nat (List.length call)) = true ->
  is_bytes (call ++ exts) -> transaction c g (frame call ++ exts) = Ok t ->
  (tp_call t = inl d <-> is_call c call d).
Proof.
  intros ME c g call exts t d Hf Hb Ht. pose proof (transaction_call ME c g call exts t Hf Hb Ht) as Ho.
  assert (Hcb : is_bytes call) by (apply is_bytes_app in Hb; apply Hb).
  assert (E : frame call = compact_enc (N.of_nat (List.length call)) ++ call ++ []) by (unfold frame; rewrite app_nil_r; reflexivity).
  split.
  - intros Hd. rewrite Hd in Ho. inversion Ho as [| | | |id x d' Hi Hx Hxd]; subst. exists id, x. split; [exact Hi|].
    split; [|exact Hxd]. apply whole_at. rewrite firstn_frame in Hx.
    pose proof (c06_locality _ _ _ _ _ _ [] [] (frame_bytes call Hf Hcb) ltac:(constructor) Hx) as L.
    cbn [List.length] in L. rewrite slice_frame, frame_rest, app_nil_l, app_nil_r in L. exact L.
  - intros (id & x & Hi & Hx & Hxd).
    assert (Hc : call_outcome c (frame call ++ exts) (List.length (compact_enc (N.of_nat (List.length call)))) (List.length (frame call)) (Ok d)).
    { refine (CO_call c _ _ _ id x d Hi _ Hxd). rewrite firstn_frame, E.
      rewrite (part_moves _ call id x (compact_enc (N.of_nat (List.length call))) []); [|rewrite <- E; apply frame_bytes; assumption|exact Hx].
      rewrite app_nil_r. reflexivity. }
    pose proof (call_outcome_unique c _ _ _ _ _ Ho Hc) as Eq. destruct (tp_call t); [injection Eq as <-; reflexivity|discriminate].
Qed.
Print Assumptions c69_signing.

(** Inclusion: an extrinsic made of parts that decode on their own is shown as these parts, and
    its call as the call. *)
Theorem c69_unsigned : forall ME (c : chain ME) p v call d, ch_params c = inl p -> ch_call c = inl (ep_call p) ->
  ch_version c = inl v -> (v < 128)%N -> is_bytes call -> fits U32 (N.of_nat (S (List.length call))) = true ->
  is_call c call d -> unchecked_extrinsic c (unsigned_extrinsic v call) = Ok (UxUnsigned d).
Proof.
  intros ME c p v call d Hp Hc Hv Hl Hb Hf (id & x & Hi & Hx & Hxd). assert (Eid : id = ep_call p) by congruence. subst id. clear Hi.
  assert (Hcb : is_bytes (v :: call)) by (constructor; [eapply N.lt_trans; [exact Hl|reflexivity]|exact Hb]).
  eapply unchecked_unique; [apply unchecked_ok, frame_bytes; [exact Hf|exact Hcb]|].
  refine (UA_parsed c _ p v call v [x] _ (UxUnsigned d) Hp _ Hv _ _ _).
  - split; [exact Hf|reflexivity].
  - apply N.mod_small, Hl.
  - replace (128 <=? v)%N with false by (symmetry; apply N.leb_gt, Hl).
    eapply IT_cons; [|apply IT_nil].
    assert (E : unsigned_extrinsic v call = (compact_enc (N.of_nat (List.length (v :: call))) ++ [v]) ++ call ++ []).
    { unfold unsigned_extrinsic, frame. rewrite app_nil_r, <- app_assoc. reflexivity. }
    replace (_ - _)%nat with (List.length (compact_enc (N.of_nat (List.length (v :: call))) ++ [v])).
    2: { rewrite E, !app_length. cbn [List.length]. lia. }
    pose proof (part_moves (ch_types c) call (ep_call p) x (compact_enc (N.of_nat (List.length (v :: call))) ++ [v]) []) as P.
    rewrite <- E in P. apply P; [apply frame_bytes; assumption|exact Hx].
  - constructor. exact Hxd.
Qed.
Print Assumptions c69_unsigned.

Lemma turn_parts ME (c : chain ME) ids parts xs : Forall2 (fun id (y : bytes * ext pdata) => decode_all (ch_types c) (fst y) id = Ok (snd y)) ids (combine parts xs) ->
  List.length parts = List.length xs -> forall pre post, is_bytes (pre ++ List.concat parts ++ post) ->
  in_turn c (pre ++ List.concat parts ++ post) ids (List.length pre) (inl (xs, List.length (pre ++ List.concat parts))).
Proof.
  revert parts xs. induction ids as [|id ids IH]; intros [|b parts] [|x xs] H Hl pre post Hb; try discriminate Hl; inversion H; subst.
  - cbn [List.concat]. rewrite app_nil_r. constructor.
  - cbn [List.concat] in *. cbn [fst snd] in *.
    replace (pre ++ (b ++ List.concat parts) ++ post) with (pre ++ b ++ (List.concat parts ++ post)) in * by (rewrite <- !app_assoc; reflexivity).
    eapply IT_cons; [apply part_moves; [exact Hb|eassumption]|].
    replace (pre ++ b ++ List.concat parts ++ post) with ((pre ++ b) ++ List.concat parts ++ post) in * by (rewrite <- !app_assoc; reflexivity).
    replace (pre ++ b ++ List.concat parts) with ((pre ++ b) ++ List.concat parts) by (rewrite <- !app_assoc; reflexivity).
    apply IH; [assumption|cbn in Hl; lia|exact Hb].
Qed.


Definition signed_head (v : N) (address signature extra call : bytes) : bytes :=
  compact_enc (N.of_nat (List.length ((v + 128)%N :: address ++ signature ++ extra ++ call))) ++ [(v + 128)%N].

Lemma signed_split v a s e call : signed_extrinsic v a s e call = signed_head v a s e call ++ List.concat [a; s; e] ++ call.
Proof.
  unfold signed_extrinsic, signed_head, frame. cbn [List.concat]. rewrite app_nil_r, <- !app_assoc. reflexivity.
Qed.

Lemma signed_start v a s e call : (List.length (signed_extrinsic v a s e call) - List.length (a ++ s ++ e ++ call))%nat = List.length (signed_head v a s e call).
Proof. rewrite signed_split. cbn [List.concat]. rewrite !app_length. cbn [List.length]. lia. Qed.

Theorem c69_signed : forall ME (c : chain ME) p v address signature extra call xa xs xe d,
  ch_params c = inl p -> ch_call c = inl (ep_call p) -> ch_version c = inl v -> (v < 128)%N ->
  is_bytes (address ++ signature ++ extra ++ call) ->
  fits U32 (N.of_nat (S (List.length (address ++ signature ++ extra ++ call)))) = true ->
  decode_all (ch_types c) address (ep_address p) = Ok xa ->
  decode_all (ch_types c) signature (ep_signature p) = Ok xs ->
  decode_all (ch_types c) extra (ep_extra p) = Ok xe ->
  is_call c call d ->
  unchecked_extrinsic c (signed_extrinsic v address signature extra call) = Ok (UxSigned xa xs xe d).
Proof.
  intros ME c p v a s e call xa xs xe d Hp Hc Hv Hl Hb Hf Ha Hs He (id & x & Hi & Hx & Hxd).
  assert (Eid : id = ep_call p) by congruence. subst id. clear Hi.
  assert (Hcb : is_bytes ((v + 128)%N :: a ++ s ++ e ++ call)).
  { constructor; [apply (N.add_lt_mono_r v 128 128), Hl|exact Hb]. }
  assert (Hbb : is_bytes (signed_extrinsic v a s e call)) by (apply frame_bytes; assumption).
  eapply unchecked_unique; [apply unchecked_ok, Hbb|].
  refine (UA_parsed c _ p (v + 128)%N (a ++ s ++ e ++ call) v [xa; xs; xe; x] _ (UxSigned xa xs xe d) Hp _ Hv _ _ _).
  - split; [exact Hf|reflexivity].
  - replace (v + 128)%N with (v + 1 * 128)%N by reflexivity. rewrite N.mod_add by discriminate. apply N.mod_small, Hl.
  - replace (128 <=? v + 128)%N with true by (symmetry; apply N.leb_le, N.le_add_l). rewrite signed_start.
    assert (E : signed_extrinsic v a s e call = signed_head v a s e call ++ List.concat [a; s; e; call] ++ []).
    { rewrite signed_split. cbn [List.concat]. rewrite !app_nil_r, <- !app_assoc. reflexivity. }
    rewrite E. apply turn_parts; [repeat constructor; assumption|reflexivity|rewrite <- E; exact Hbb].
  - constructor. exact Hxd.
Qed.
Print Assumptions c69_signed.

(** In the other direction: of an accepted extrinsic with these parts the call is shown as
    these bytes on their own are, unless there are bytes behind the call (C32), which
    `decode_all_as_type` then says. *)
Definition call_or_more {ME} (c : chain ME) (call : bytes) (d : psdata pdata) : Prop :=
  is_call c call d \/
  exists id n, (n < List.length call)%nat /\ ch_call c = inl id /\ decode_all (ch_types c) call id = Err (SomeDataNotUsedBlob n) /\
    is_call c (firstn n call) d.

Lemma call_at ME (c : chain ME) p pre call x q d : ch_call c = inl (ep_call p) -> is_bytes (pre ++ call) ->
  decode_at (ch_types c) (pre ++ call) (ep_call p) (List.length pre) = (Ok x, q) -> x_data x = DCall d -> call_or_more c call d.
Proof.
  intros Hc Hb H Hx.
  destruct (decode_bounds c (pre ++ call) (ep_call p) (List.length pre) x q) as [H1 H2]; [rewrite app_length; lia|exact H|].
  rewrite app_length in H2. remember (q - List.length pre)%nat as n eqn:Hn.
  assert (Hcb : is_bytes call) by (apply is_bytes_app in Hb; apply Hb).
  assert (Hsl : slice (pre ++ call) (List.length pre) n = firstn n call).
  { unfold slice. rewrite skipn_app, Nat.sub_diag, skipn_all. reflexivity. }
  pose proof (fun post Hp => c06_locality (ch_types c) _ _ _ x q [] post Hb Hp H) as L.
  rewrite <- Hn, Hsl in L. cbn [app List.length Nat.add] in L.
  assert (L1 : decode_at (ch_types c) call (ep_call p) 0 = (Ok x, n)).
  { rewrite <- (firstn_skipn n call) at 1. apply L. apply Forall_skipn, Hcb. }
  assert (L2 : decode_at (ch_types c) (firstn n call) (ep_call p) 0 = (Ok x, n)).
  { rewrite <- (app_nil_r (firstn n call)). apply L. constructor. }
  assert (Hle : (n <= List.length call)%nat) by lia.
  destruct (Nat.eq_dec n (List.length call)) as [E|E].
  - left. exists (ep_call p), x. split; [exact Hc|]. split; [|exact Hx]. apply whole_at. rewrite L1, E. reflexivity.
  - right. exists (ep_call p), n. split; [lia|]. split; [exact Hc|]. split.
    + pose proof (c14_whole_blob (ch_types c) call (ep_call p)) as W. rewrite L1 in W.
      destruct (Nat.eqb_spec n (List.length call)); [contradiction|exact W].
    + exists (ep_call p), x. split; [exact Hc|]. split; [|exact Hx]. apply whole_at. rewrite L2, firstn_length, Nat.min_l by exact Hle. reflexivity.
Qed.

Theorem c69_unsigned_back : forall ME (c : chain ME) p v call u, ch_params c = inl p -> ch_call c = inl (ep_call p) ->
  (v < 128)%N -> is_bytes call -> fits U32 (N.of_nat (S (List.length call))) = true ->
  unchecked_extrinsic c (unsigned_extrinsic v call) = Ok u ->
  exists d, u = UxUnsigned d /\ call_or_more c call d.
Proof.
  intros ME c p v call u Hp Hc Hl Hb Hf H.
  assert (Hcb : is_bytes (v :: call)) by (constructor; [eapply N.lt_trans; [exact Hl|reflexivity]|exact Hb]).
  assert (Hbb : is_bytes (unsigned_extrinsic v call)) by (apply frame_bytes; assumption).
  apply parsed_turn in H; [|exact Hbb]. destruct H as (p' & b & rest & v' & xs & q & H1 & H2 & H3 & H4 & H5 & H6).
  assert (Ep : p' = p) by congruence. subst p'.
  assert (Eb : b :: rest = v :: call) by (eapply framed_unique; [exact H2|split; [exact Hf|reflexivity]]).
  injection Eb as -> ->. replace (128 <=? v)%N with false in H5 by (symmetry; apply N.leb_gt, Hl). cbn [order] in H5.
  apply turn_cons in H5. destruct H5 as (x & q1 & xs' & -> & Hd & Ht). inversion Ht; subst.
  inversion H6 as [x0 d Hx|]; subst. exists d. split; [reflexivity|].
  assert (E : unsigned_extrinsic v call = (compact_enc (N.of_nat (List.length (v :: call))) ++ [v]) ++ call).
  { unfold unsigned_extrinsic, frame. rewrite <- app_assoc. reflexivity. }
  rewrite E in Hd, Hbb.
  replace (_ - _)%nat with (List.length (compact_enc (N.of_nat (List.length (v :: call))) ++ [v])) in Hd.
  2: { rewrite !app_length. cbn [List.length]. lia. }
  exact (call_at _ c p _ call x _ d Hc Hbb Hd Hx).
Qed.
Print Assumptions c69_unsigned_back.

Theorem c69_signed_back : forall ME (c : chain ME) p v address signature extra call xa xs xe u,
  ch_params c = inl p -> ch_call c = inl (ep_call p) -> (v < 128)%N ->
  is_bytes (address ++ signature ++ extra ++ call) ->
  fits U32 (N.of_nat (S (List.length (address ++ signature ++ extra ++ call)))) = true ->
  decode_all (ch_types c) address (ep_address p) = Ok xa ->
  decode_all (ch_types c) signature (ep_signature p) = Ok xs ->
  decode_all (ch_types c) extra (ep_extra p) = Ok xe ->
  unchecked_extrinsic c (signed_extrinsic v address signature extra call) = Ok u ->
  exists d, u = UxSigned xa xs xe d /\ call_or_more c call d.
Proof.
  intros ME c p v a s e call xa xs xe u Hp Hc Hl Hb Hf Ha Hs He H.
  assert (Hcb : is_bytes ((v + 128)%N :: a ++ s ++ e ++ call)).
  { constructor; [apply (N.add_lt_mono_r v 128 128), Hl|exact Hb]. }
  assert (Hbb : is_bytes (signed_extrinsic v a s e call)) by (apply frame_bytes; assumption).
  apply parsed_turn in H; [|exact Hbb]. destruct H as (p' & b & rest & v' & ys & q & H1 & H2 & H3 & H4 & H5 & H6).
  assert (Ep : p' = p) by congruence. subst p'.
  assert (Eb : b :: rest = (v + 128)%N :: a ++ s ++ e ++ call) by (eapply framed_unique; [exact H2|split; [exact Hf|reflexivity]]).
  assert (E1 : b = (v + 128)%N) by congruence. assert (E2 : rest = a ++ s ++ e ++ call) by congruence. subst b rest.
  replace (128 <=? v + 128)%N with true in H5 by (symmetry; apply N.leb_le, N.le_add_l). rewrite signed_start in H5. cbn [order] in H5.
  remember (signed_head v a s e call) as hd eqn:Hhd.
  assert (E : signed_extrinsic v a s e call = hd ++ a ++ s ++ e ++ call).
  { rewrite signed_split, <- Hhd. cbn [List.concat]. rewrite app_nil_r, <- !app_assoc. reflexivity. }
  rewrite E in *.
  apply turn_cons in H5. destruct H5 as (y1 & q1 & l1 & -> & D1 & T1).
  rewrite (part_moves _ a _ xa hd (s ++ e ++ call) Hbb Ha) in D1. injection D1 as <- <-.
  rewrite (app_assoc hd a) in *.
  apply turn_cons in T1. destruct T1 as (y2 & q2 & l2 & -> & D2 & T2).
  rewrite (part_moves _ s _ xs (hd ++ a) (e ++ call) Hbb Hs) in D2. injection D2 as <- <-.
  rewrite (app_assoc (hd ++ a) s) in *.
  apply turn_cons in T2. destruct T2 as (y3 & q3 & l3 & -> & D3 & T3).
  rewrite (part_moves _ e _ xe ((hd ++ a) ++ s) call Hbb He) in D3. injection D3 as <- <-.
  rewrite (app_assoc ((hd ++ a) ++ s) e) in *.
  apply turn_cons in T3. destruct T3 as (x & q4 & l4 & -> & D4 & T4). inversion T4; subst l4 q4.
  inversion H6 as [|y1 y2 y3 x0 d Hx]; subst. exists d. split; [reflexivity|].
  exact (call_at _ c p _ call x _ d Hc Hbb D4 Hx).
Qed.
Print Assumptions c69_signed_back.

(** Together: the call that was shown for signing is the one shown in the extrinsic, and
    nothing else can be: two accepted showings of the same call bytes never differ. *)
Theorem c69_signed_is_included : forall ME (c : chain ME) p v g exts t address signature extra call xa xs xe d,
  ch_params c = inl p -> ch_call c = inl (ep_call p) -> ch_version c = inl v -> (v < 128)%N ->
  is_bytes (address ++ signature ++ extra ++ call) -> is_bytes exts ->
  fits U32 (N.of_nat (S (List.length (address ++ signature ++ extra ++ call)))) = true ->
  decode_all (ch_types c) address (ep_address p) = Ok xa ->
  decode_all (ch_types c) signature (ep_signature p) = Ok xs ->
  decode_all (ch_types c) extra (ep_extra p) = Ok xe ->
  transaction c g (frame call ++ exts) = Ok t -> tp_call t = inl d ->
  unchecked_extrinsic c (signed_extrinsic v address signature extra call) = Ok (UxSigned xa xs xe d).
Proof.
  intros ME c p v g exts t a s e call xa xs xe d Hp Hc Hv Hl Hb Hbe Hf Ha Hs He Ht Hd.
  eapply c69_signed; eauto. refine (proj1 (c69_signing ME c g call exts t d _ _ Ht) Hd).
  - refine (fits_less _ _ _ _ Hf). rewrite !app_length. lia.
  - apply is_bytes_app. split; [|exact Hbe]. unfold is_bytes in Hb. rewrite !Forall_app in Hb. apply Hb.
Qed.
Print Assumptions c69_signed_is_included.

Lemma call_or_more_one ME (c : chain ME) call d d' : is_call c call d -> call_or_more c call d' -> d' = d.
Proof.
  intros (id & x & H1 & H2 & H3) [(id' & x' & H4 & H5 & H6)|(id' & n & _ & H4 & H5 & _)];
    assert (E : id' = id) by congruence; subst id'; rewrite H2 in H5; [|discriminate].
  assert (E : x' = x) by congruence. subst x'. congruence.
Qed.

Theorem c69_never_another_call : forall ME (c : chain ME) p v g exts t address signature extra call xa xs xe d u,
  ch_params c = inl p -> ch_call c = inl (ep_call p) -> (v < 128)%N ->
  is_bytes (address ++ signature ++ extra ++ call) -> is_bytes exts ->
  fits U32 (N.of_nat (S (List.length (address ++ signature ++ extra ++ call)))) = true ->
  decode_all (ch_types c) address (ep_address p) = Ok xa ->
  decode_all (ch_types c) signature (ep_signature p) = Ok xs ->
  decode_all (ch_types c) extra (ep_extra p) = Ok xe ->
  transaction c g (frame call ++ exts) = Ok t -> tp_call t = inl d ->
  unchecked_extrinsic c (unsigned_extrinsic v call) = Ok u \/
  unchecked_extrinsic c (signed_extrinsic v address signature extra call) = Ok u ->
  call_in u = d.
Proof.
  intros ME c p v g exts t a s e call xa xs xe d u Hp Hc Hl Hb Hbe Hf Ha Hs He Ht Hd Hu.
  assert (Hcb : is_bytes call) by (unfold is_bytes in Hb; rewrite !Forall_app in Hb; apply Hb).
  assert (Hf2 : fits U32 (N.of_nat (S (List.length call))) = true).
  { refine (fits_less _ _ _ _ Hf). rewrite !app_length. lia. }
  assert (Hic : is_call c call d).
  { refine (proj1 (c69_signing ME c g call exts t d _ _ Ht) Hd).
    - refine (fits_less _ _ _ _ Hf2). lia.
    - apply is_bytes_app. split; assumption. }
  destruct Hu as [Hu|Hu].
  - apply (c69_unsigned_back ME c p v call u) in Hu; try assumption. destruct Hu as (d' & -> & Hm). exact (call_or_more_one _ c call d d' Hic Hm).
  - apply (c69_signed_back ME c p v a s e call xa xs xe u) in Hu; try assumption. destruct Hu as (d' & -> & Hm). exact (call_or_more_one _ c call d d' Hic Hm).
Qed.
Print Assumptions c69_never_another_call.

(** Concrete cases: the transaction of the sample chain and an extrinsic from the same call. *)
Example c69_case_signing : exists xs,
  transaction sample_chain (Some genesis) (frame the_call ++ mortal_extensions) = Ok (TransactionParsed (inl call_data) xs).
Proof. eexists. vm_compute. reflexivity. Qed.
Example c69_case_chain : exists p, ch_params sample_chain = inl p /\ ch_call sample_chain = inl (ep_call p) /\
  ch_version sample_chain = inl 4%N /\
  decode_all chain_types genesis (ep_address p) = Ok (shown_hash genesis) /\
  decode_all chain_types other_hash (ep_signature p) = Ok (shown_hash other_hash) /\
  decode_all chain_types [] (ep_extra p) = Ok (Ext (DTuple []) []).
Proof. eexists. split; [reflexivity|]. vm_compute. repeat split. Qed.
Example c69_case_included :
  unchecked_extrinsic sample_chain (signed_extrinsic 4 genesis other_hash [] the_call) = Ok signed_shown.
Proof. vm_compute. reflexivity. Qed.
Example c69_case_more : call_or_more sample_chain (the_call ++ [1; 2]%N) call_data /\
  unchecked_extrinsic sample_chain (unsigned_extrinsic 4 (the_call ++ [1; 2]%N)) = Ok (UxUnsigned call_data).
Proof.
  split; [|vm_compute; reflexivity]. right. exists 9%N, 4%nat. split; [apply Nat.ltb_lt; reflexivity|].
  split; [reflexivity|]. split; [vm_compute; reflexivity|]. exists 9%N. eexists. split; [reflexivity|].
  split; vm_compute; reflexivity.
Qed.
