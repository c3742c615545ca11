(** C22, C25, C26: calls and extensions of signable transactions. *)
From Coq Require Import Lia ZifyBool ZifyNat ZifyN.
From Verif Require Import Base Compact Types Indicators Decode Sign Spec ProofBase ProofCompact ProofTables ProofPeel
  ProofSpec SpecSource ProofSafe ProofSafe2 ProofFuel SpecTrack ProofTrack ProofIso Api ApiSign SpecSign ProofCor ProofLeaf ProofKinds ProofSign.
Local Open Scope list_scope.

(** *** Cut buffers *)

Lemma limit_same data n : (n <= List.length data)%nat ->
  exists b', limit_length (@slice_buffer unit data) n = Some b' /\ same_reads 0 0 b' (slice_buffer (firstn n data)) /\
    good_buffer b'.
Proof.
  intros Hn. unfold limit_length. cbn [total_len slice_buffer].
  destruct (List.length data <? n)%nat eqn:H1; [lia|]. eexists. split; [reflexivity|]. split.
  - split; cbn [total_len slice_buffer]; [rewrite firstn_length; lia|].
    intros p m _. rewrite Nat.add_0_r. cbn [rd]. unfold limited_rd, slice_rd. cbn [rd slice_buffer]. unfold slice_rd.
    rewrite firstn_length, Nat.min_l by lia.
    destruct (n <? p)%nat eqn:H2; cbn [fst]; [rewrite shift_buf_0; reflexivity|].
    destruct (N.of_nat n <? N.of_nat p + m)%N eqn:H3; cbn [fst]; [rewrite shift_buf_0; reflexivity|].
    destruct (List.length data <? p)%nat eqn:H4; [lia|].
    destruct (N.of_nat (List.length data) <? N.of_nat p + m)%N eqn:H5; [lia|]. cbn [fst].
    f_equal. unfold slice. rewrite skipn_firstn_comm, firstn_firstn, Nat.min_l by lia. reflexivity.
  - eapply good_limit; [apply (good_slice data)|]. unfold limit_length. cbn [total_len slice_buffer]. rewrite H1. reflexivity.
Qed.

Lemma decode_at_fst types data id pos : decode_at types data id pos =
  fst (decode_with_type (@slice_buffer unit data) (portable types) (Symbol id) propagated_new pos tt).
Proof.
  unfold decode_at, decode_as_type_at_position.
  destruct (decode_with_type (@slice_buffer unit data) (portable types) (Symbol id) propagated_new pos tt) as [[o q] e]. reflexivity.
Qed.

Lemma view_dcall types h id v d l : view types false h id v = Some (DCall d, l) ->
  (exists i j vs, v = VItem i j vs) \/ exists v', v = VCompact v'.
Proof.
  destruct v; eauto; cbn [view]; destruct (lookup types id) as [t|]; try discriminate; intros H; exfalso;
    repeat match type of H with match ?y with _ => _ end = _ => destruct y; try discriminate end; try discriminate.
  all: unfold sequence_of in H; match type of H with Some (match ?y with _ => _ end, _) = _ => destruct y; discriminate end.
Qed.

Lemma nth_skipn {A} (l : list A) p x : nth_error l p = Some x -> skipn p l = x :: skipn (S p) l.
Proof.
  revert l; induction p as [|p IH]; intros [|y l] H; try discriminate.
  - injection H as ->. reflexivity.
  - exact (IH l H).
Qed.

Section Call.
Context {ME : Type}.
Variable c : chain ME.
Local Notation types := (ch_types c).

Lemma call_answer data mk : (extensions_start mk <= List.length data)%nat ->
  call_outcome c data (call_start mk) (extensions_start mk) (call_of c data mk).
Proof.
  intros Hn. unfold call_of, result, decode_as_call, data_no_extensions.
  destruct (limit_same data _ Hn) as (b' & -> & Hs & Hg).
  unfold bind at 1, at_local, decode_as_call_unmarked. cbn [chain_metadata m_call_ty m_types].
  destruct (ch_call c) as [id|x] eqn:Hc; [|cbn; apply CO_metadata; exact Hc].
  unfold bind at 1. cbn [lift ret]. unfold map_err at 1, ret at 1. unfold bind at 1, map_err at 1.
  pose proof (trk_shifted types 0 0 b' _ id propagated_new Hs Hg (good_slice _) eq_refl (call_start mk) tt tt (Nat.le_0_l _)) as Ht.
  rewrite Nat.add_0_r in Ht. unfold tracked in Ht.
  pose proof (hinted_returns types HNone (firstn (extensions_start mk) data) id (call_start mk)) as Hr.
  rewrite <- decode_at_hinted in Hr. pose proof (decode_at_fst types (firstn (extensions_start mk) data) id (call_start mk)) as Hd.
  rewrite Hd in Hr.
  destruct (decode_with_type b' (portable types) (Symbol id) propagated_new (call_start mk) tt) as [[o1 q1] e1].
  destruct (decode_with_type (slice_buffer (firstn (extensions_start mk) data)) (portable types) (Symbol id) propagated_new (call_start mk) tt) as [[o2 q2] e2].
  cbn [fst snd] in *. destruct Ht as [[[] _]|Ht].
  destruct Hr as [(x & ->)|(x & ->)].
  - destruct o1 as [x1| | |]; try contradiction. destruct Ht as (-> & -> & _). rewrite Nat.add_0_r in Hd.
    assert (Hno : (forall d, x_data x <> DCall d) -> call_outcome c data (call_start mk) (extensions_start mk) (Err (NotACall id))).
    { intros H. eapply CO_not_a_call; eauto. }
    destruct (x_data x) eqn:Hx; cbn [fst]; try (cbn; apply Hno; congruence).
    unfold ret at 1. destruct (Nat.eqb_spec q1 (extensions_start mk)) as [He|He]; cbn.
    + subst q1. eapply CO_call; eauto.
    + eapply CO_unused; eauto.
  - destruct o1 as [|x1| |]; try contradiction. subst x. rewrite shift_err_0 in Hd. cbn. eapply CO_undecodable; eauto.
Qed.

Theorem call_outcome_unique data start stop o1 o2 :
  call_outcome c data start stop o1 -> call_outcome c data start stop o2 -> o1 = o2.
Proof.
  intros H1 H2. destruct H1, H2; try congruence.
  all: assert (id = id0) by congruence; subst id0.
  all: match goal with A : decode_at _ _ _ _ = _, B : decode_at _ _ _ _ = _ |- _ => rewrite A in B; try discriminate; try (injection B as <- <-) end.
  all: try congruence.
  all: exfalso; match goal with A : forall d, _ <> DCall d, B : _ = DCall _ |- _ => exact (A _ B) end.
Qed.

Theorem call_isolated data1 data2 mk :
  (extensions_start mk <= List.length data1)%nat -> (extensions_start mk <= List.length data2)%nat ->
  firstn (extensions_start mk) data1 = firstn (extensions_start mk) data2 -> call_of c data1 mk = call_of c data2 mk.
Proof.
  intros H1 H2 He. apply (call_outcome_unique data1 (call_start mk) (extensions_start mk)); [apply call_answer, H1|].
  pose proof (call_answer data2 mk H2) as H. destruct H; try rewrite <- He in *.
  - apply CO_metadata; auto.
  - eapply CO_undecodable; eauto.
  - eapply CO_not_a_call; eauto.
  - eapply CO_unused; eauto.
  - eapply CO_call; eauto.
Qed.

Lemma dcall_pattern data id pos x q d : is_bytes data -> decode_at types data id pos = (Ok x, q) -> x_data x = DCall d ->
  pallet_call types data id pos d.
Proof.
  intros Hb Hd Hx. rewrite decode_at_hinted in Hd. apply (hinted_sound types HNone data id pos x q Hb) in Hd.
  destruct Hd as (v & bs & He & Hv & _ & Hh & _). rewrite Hx in Hv.
  destruct (view_dcall _ _ _ _ _ _ Hv) as [(i & j & vs0 & ->)|(v' & ->)];
    cbn [enc view] in He, Hv; destruct (lookup types id) as [t|] eqn:Hl; try discriminate.
  - destruct (def_of t) as [[|vs| | | | | |]|] eqn:Hdf; try discriminate.
    destruct (by_index vs i) as [var|] eqn:Hi; [|discriminate].
    destruct (pallet_items types t var) as [[inner items]|] eqn:Hp; [|discriminate].
    destruct (by_index items j) as [item|] eqn:Hj; [|discriminate].
    destruct (negb false && _ && _) eqn:Hg; [|discriminate].
    destruct (enc_list _ _ _) as [r|]; [|discriminate]. cbn [option_map] in He. injection He as <-.
    pose proof Hp as Hp2. unfold pallet_items in Hp2. destruct (v_fields var) as [|f [|]] eqn:Hf; try discriminate.
    destruct (lookup types (f_ty f)) as [inner'|] eqn:Hin; [|discriminate].
    destruct (t_def inner') as [|its| | | | | |] eqn:Hid; try discriminate.
    destruct (item_eqb (classify t) (classify inner')) eqn:Hie; [|discriminate]. injection Hp2 as -> ->.
    match type of Hv with match ?y with _ => _ end = _ => destruct y as [fs|] eqn:Hfs; [|discriminate] end.
    assert (Hc : classify t = SpItem ItCall /\ classify inner = SpItem ItCall).
    { destruct (classify t) as [| | | | | |[]]; try discriminate; destruct (classify inner) as [| | | | | |[]]; try discriminate; auto.  }
    destruct Hc as [Hc1 Hc2]. rewrite Hc1 in Hv. injection Hv as <-.
    exists t, vs, var, f, inner, items, item, i, j. repeat split; auto.
    + unfold def_of in Hdf. rewrite Hc1 in Hdf. congruence.
    + apply has_cons in Hh. destruct Hh as [Hh1 Hh]. apply has_cons in Hh. destruct Hh as [Hh2 _].
      unfold slice. rewrite (nth_skipn data pos i Hh1), Nat.add_1_r in *. rewrite (nth_skipn data (S pos) j Hh2). reflexivity.
    + cbn [ps_fields]. eapply view_list_map; [|exact Hfs]. intros f0 v0 b0 H0.
      cbv beta in H0. destruct (view _ _ _ _ _) as [z|]; [|discriminate]. injection H0 as <-. reflexivity.
  - exfalso. destruct (def_of t) as [[| | | | | |inner|]|]; try discriminate.
    cbn [andb] in Hv. destruct (view types false HNone inner v') as [[d' l']|] eqn:Hw; [|discriminate].
    assert (d' = DCall d) by congruence. subst d'. apply view_dcall in Hw.
    destruct Hw as [(i & j & vs0 & ->)|(v2 & ->)]; cbn [enc] in He; destruct (lookup types inner) as [t2|]; try discriminate.
    + repeat match type of He with match ?y with _ => _ end = _ => destruct y; try discriminate end.
    + destruct (def_of t2) as [[]|]; discriminate.
Qed.
End Call.

(** *** Shifted extensions *)

Lemma move_buf_shift k x : move_buf k x = shift_buf k x.
Proof. reflexivity. Qed.
Lemma move_err_shift k x : move_err k x = shift_err k x.
Proof. destruct x; reflexivity. Qed.

Lemma slice_after (a l : bytes) p n : (List.length a <= p)%nat -> slice (a ++ l) p n = slice l (p - List.length a) n.
Proof. intros H. unfold slice. rewrite skipn_app, (skipn_all2 a) by lia. reflexivity. Qed.

Lemma shifted_reads (a1 a2 l : bytes) k : List.length a2 = (List.length a1 + k)%nat ->
  same_reads k (List.length a1) (slice_buffer (a1 ++ l)) (slice_buffer (a2 ++ l)).
Proof.
  intros Hk. split; cbn [total_len slice_buffer]; [rewrite !app_length; lia|].
  intros p n Hp. cbn [rd slice_buffer]. unfold slice_rd. rewrite !app_length.
  replace (List.length a2 + List.length l <? p + k)%nat with (List.length a1 + List.length l <? p)%nat by lia.
  replace (N.of_nat (List.length a2 + List.length l) <? N.of_nat (p + k) + n)%N
    with (N.of_nat (List.length a1 + List.length l) <? N.of_nat p + n)%N by lia.
  destruct (List.length a1 + List.length l <? p)%nat; cbn [fst].
  - cbn [shift_buf]. f_equal. f_equal. lia.
  - destruct (_ <? _)%N; cbn [fst]; [reflexivity|].
    rewrite !slice_after by lia. f_equal. f_equal. lia.
Qed.

Section Exts.
Context {ME : Type}.
Variable c : chain ME.
Local Notation types := (ch_types c).

Lemma trk_ext_loop k lo b1 b2 l : same_reads k lo b1 b2 -> good_buffer b1 -> good_buffer b2 ->
  trk k lo False pext (shift_err k) eq (extensions_loop b1 (portable types) l) (extensions_loop b2 (portable types) l).
Proof.
  intros Hs H1 H2. induction l as [|[i id] l IH]; cbn [extensions_loop]; [apply trk_ret; reflexivity|].
  eapply trk_bind; [apply trk_shifted; auto|]. intros x ? <-. eapply trk_bind; [exact IH|]. intros y ? <-.
  apply trk_ret. reflexivity.
Qed.

Definition sext (x : signable_err ME) : Prop := exists y, x = Parsing y /\ pext y.

Lemma trk_exts k lo b1 b2 g : same_reads k lo b1 b2 -> good_buffer b1 -> good_buffer b2 ->
  trk k lo False sext (move_signable k) eq (decode_extensions_unmarked b1 (chain_metadata c) g)
    (decode_extensions_unmarked b2 (chain_metadata c) g).
Proof.
  intros Hs H1 H2. unfold decode_extensions_unmarked. cbn [chain_metadata m_types m_signed_extensions m_spec_name_version].
  assert (Hlift : forall A (x : A + ME), trk k lo False sext (move_signable k) eq
    (map_err MetaStructure (@lift unit ME A x)) (map_err MetaStructure (@lift unit ME A x))).
  { intros A [a|x] p e1 e2 Hp; right; cbn; auto. }
  eapply trk_bind; [apply Hlift|]. intros l ? <-.
  eapply trk_bind.
  { eapply trk_map_err; [apply (trk_ext_loop _ _ _ _ _ Hs H1 H2)| |].
    - intros x Hx. exists x. auto.
    - intros x. cbn [move_signable]. destruct x; reflexivity. }
  intros xs ? <-. eapply trk_bind; [apply trk_get|]. intros a b [-> Ha].
  destruct Hs as [Hlen _]. rewrite Hlen.
  replace (Nat.eqb (a + k) (total_len b1 + k)) with (Nat.eqb a (total_len b1)) by lia.
  destruct (Nat.eqb a (total_len b1)); cbn [negb]; [|apply trk_fail; reflexivity].
  eapply trk_bind; [apply Hlift|]. intros nv ? <-.
  eapply trk_bind; [|intros; apply trk_ret; reflexivity].
  destruct (check_extensions xs (printed_spec_version nv) g) as [[]|x] eqn:Hc; [apply trk_ret; reflexivity|apply trk_fail].
  pose proof (@check_judged ME xs (printed_spec_version nv) g) as Hj. rewrite Hc in Hj. inversion Hj; reflexivity.
Qed.

Theorem extensions_shifted g a1 a2 exts k mk1 mk2 : extensions_start mk1 = List.length a1 ->
  extensions_start mk2 = List.length a2 -> List.length a2 = (List.length a1 + k)%nat ->
  extensions_of c g (a2 ++ exts) mk2 = move_outcome k (extensions_of c g (a1 ++ exts) mk1).
Proof.
  intros H1 H2 Hk.
  pose proof (trk_exts k (List.length a1) _ _ g (shifted_reads a1 a2 exts k Hk) (good_slice _) (good_slice _)
    (List.length a1) tt tt (le_n _)) as Ht.
  unfold extensions_of, result, decode_extensions, bind, at_local. rewrite H1, H2, Hk. unfold tracked in Ht.
  destruct (decode_extensions_unmarked (slice_buffer (a1 ++ exts)) _ _ _ _) as [[o1 q1] e1].
  destruct (decode_extensions_unmarked (slice_buffer (a2 ++ exts)) _ _ _ _) as [[o2 q2] e2].
  destruct Ht as [[[] _]|Ht]. destruct o1, o2; try contradiction; cbn; try reflexivity.
  - destruct Ht as (-> & _). reflexivity.
  - rewrite Ht. reflexivity.
Qed.

Lemma move_outcome_0 {A} (o : outcome (signable_err ME) A) : move_outcome 0 o = o.
Proof.
  destruct o as [|x| |]; try reflexivity. cbn. destruct x; cbn; rewrite ?Nat.add_0_r, ?move_err_shift, ?shift_err_0; reflexivity.
Qed.

(** *** Whole transactions *)

Lemma transaction_eq g data : transaction c g data =
  match @mark_data ME data with
  | Ok mk =>
      match extensions_of c g data mk with
      | Ok xs => match call_of c data mk with
                 | Ok call => Ok (TransactionParsed (inl call) xs)
                 | Err x => Ok (TransactionParsed (inr x) xs)
                 | Panic => Panic
                 | OutOfFuel => OutOfFuel
                 end
      | Err x => Err x
      | Panic => Panic
      | OutOfFuel => OutOfFuel
      end
  | Err x => Err x
  | Panic => Panic
  | OutOfFuel => OutOfFuel
  end.
Proof.
  unfold transaction, result, parse_transaction, mark_data, extensions_of, call_of, result. unfold bind at 1.
  assert (Hm : forall e, exists o, @mark unit ME (slice_buffer data) 0 e = (o, 0%nat, tt)).
  { intros []. unfold mark, bind, map_err, at_local, catch, read_slice.
    destruct (get_compact U32 (slice_buffer data) 0 tt) as [[[n|x| |] q] []]; try (eexists; reflexivity).
    destruct (rd _ _ _ _) as [[l|x] []]; eexists; reflexivity. }
  destruct (Hm tt) as (o & ->). cbn [fst]. destruct o as [mk|x| |]; try reflexivity.
  unfold bind at 1.
  assert (He : exists o, decode_extensions (slice_buffer data) mk (chain_metadata c) g 0 tt = (o, 0%nat, tt)).
  { unfold decode_extensions, bind, at_local. destruct (decode_extensions_unmarked _ _ _ _ _) as [[[n|x| |] q] []]; eexists; reflexivity. }
  destruct He as (o & ->). cbn [fst]. destruct o as [xs|x| |]; try reflexivity.
  unfold bind, catch. destruct (decode_as_call _ _ _ _ _) as [[[n|x| |] q] []]; reflexivity.
Qed.

Lemma mark_of call rest : fits U32 (N.of_nat (List.length call)) = true -> is_bytes (call ++ rest) ->
  let head := compact_enc (N.of_nat (List.length call)) in
  @mark_data ME (head ++ call ++ rest) = Ok (Marked (List.length head) (List.length (head ++ call))).
Proof.
  intros Hf Hb head.
  assert (Hd : is_bytes (head ++ call ++ rest)).
  { apply Forall_app. split; [apply (compact_enc_fits_is_bytes U32), Hf|exact Hb]. }
  destruct (@mark_spec ME _ Hd) as [(n & call' & rest' & Hf' & He & Hn & ->)|[Hno _]].
  - assert (Hnn : n = N.of_nat (List.length call)).
    { assert (Hx : compact_decode U32 (head ++ call ++ rest) = compact_decode U32 (compact_enc n ++ call' ++ rest')) by congruence.
      unfold head in Hx. rewrite !compact_decode_enc in Hx by assumption. congruence. }
    unfold head. rewrite !app_length. rewrite Hnn. assert (List.length call' = List.length call) by lia. congruence.
  - exfalso. exact (Hno _ call rest Hf eq_refl eq_refl).
Qed.

Lemma mark_inside data mk : is_bytes data -> @mark_data ME data = Ok mk ->
  (call_start mk <= extensions_start mk <= List.length data)%nat.
Proof.
  intros Hb H. destruct (@mark_spec ME _ Hb) as [(n & call & rest & Hf & -> & Hn & Hm)|[_ Hm]]; rewrite Hm in H; [|discriminate].
  injection H as <-. cbn [call_start extensions_start]. rewrite !app_length. lia.
Qed.

(** *** C22 *)

Theorem call_isolated_tx g call exts1 exts2 t1 t2 : fits U32 (N.of_nat (List.length call)) = true ->
  is_bytes (call ++ exts1) -> is_bytes (call ++ exts2) ->
  let head := compact_enc (N.of_nat (List.length call)) in
  transaction c g (head ++ call ++ exts1) = Ok t1 -> transaction c g (head ++ call ++ exts2) = Ok t2 ->
  tp_call t1 = tp_call t2.
Proof.
  intros Hf H1 H2 head. rewrite !transaction_eq. unfold head.
  rewrite (mark_of call exts1 Hf H1), (mark_of call exts2 Hf H2). cbv zeta.
  set (mk := Marked _ _). assert (Hes : extensions_start mk = List.length (compact_enc (N.of_nat (List.length call)) ++ call)) by reflexivity.
  clearbody mk. rewrite (call_isolated c (compact_enc (N.of_nat (List.length call)) ++ call ++ exts1)
    (compact_enc (N.of_nat (List.length call)) ++ call ++ exts2) mk).
  - destruct (extensions_of c g (_ ++ call ++ exts1) mk) as [x1| | |]; try discriminate.
    destruct (extensions_of c g (_ ++ call ++ exts2) mk) as [x2| | |]; try discriminate.
    destruct (call_of c (_ ++ call ++ exts2) mk); try discriminate; intros A B; injection A as <-; injection B as <-; reflexivity.
  - rewrite Hes, !app_length. lia.
  - rewrite Hes, !app_length. lia.
  - rewrite Hes, !app_assoc, !firstn_app_exact. reflexivity.
Qed.

(** The extensions of a transaction do not depend on the call. *)
Theorem extensions_isolated_tx g call1 call2 exts : fits U32 (N.of_nat (List.length call1)) = true ->
  List.length call1 = List.length call2 -> is_bytes (call1 ++ exts) -> is_bytes (call2 ++ exts) ->
  match transaction c g (compact_enc (N.of_nat (List.length call1)) ++ call1 ++ exts),
        transaction c g (compact_enc (N.of_nat (List.length call2)) ++ call2 ++ exts) with
  | Ok t1, Ok t2 => tp_extensions t1 = tp_extensions t2
  | Err x1, Err x2 => x1 = x2
  | _, _ => False
  end.
Proof.
  intros Hf Hl H1 H2. assert (Hf2 : fits U32 (N.of_nat (List.length call2)) = true) by (rewrite <- Hl; exact Hf).
  pose proof (runs_returns _ _ (transaction_runs (slice_buffer (compact_enc (N.of_nat (List.length call1)) ++ call1 ++ exts))
     (chain_metadata c) (good_slice _) (good_portable _) g 0 tt)) as R1.
  pose proof (runs_returns _ _ (transaction_runs (slice_buffer (compact_enc (N.of_nat (List.length call2)) ++ call2 ++ exts))
     (chain_metadata c) (good_slice _) (good_portable _) g 0 tt)) as R2.
  fold (result (parse_transaction (slice_buffer (compact_enc (N.of_nat (List.length call1)) ++ call1 ++ exts)) (chain_metadata c) g)) in R1.
  fold (result (parse_transaction (slice_buffer (compact_enc (N.of_nat (List.length call2)) ++ call2 ++ exts)) (chain_metadata c) g)) in R2.
  fold (transaction c g (compact_enc (N.of_nat (List.length call1)) ++ call1 ++ exts)) in R1.
  fold (transaction c g (compact_enc (N.of_nat (List.length call2)) ++ call2 ++ exts)) in R2.
  pose proof (transaction_eq g (compact_enc (N.of_nat (List.length call1)) ++ call1 ++ exts)) as E1.
  pose proof (transaction_eq g (compact_enc (N.of_nat (List.length call2)) ++ call2 ++ exts)) as E2.
  rewrite (mark_of call1 exts Hf H1) in E1. rewrite (mark_of call2 exts Hf2 H2) in E2. cbv zeta in E1, E2.
  pose proof (extensions_shifted g (compact_enc (N.of_nat (List.length call1)) ++ call1)
    (compact_enc (N.of_nat (List.length call2)) ++ call2) exts 0
    (Marked (List.length (compact_enc (N.of_nat (List.length call1)))) (List.length (compact_enc (N.of_nat (List.length call1)) ++ call1)))
    (Marked (List.length (compact_enc (N.of_nat (List.length call2)))) (List.length (compact_enc (N.of_nat (List.length call2)) ++ call2)))
    eq_refl eq_refl) as Hx.
  rewrite move_outcome_0, <- !app_assoc in Hx. specialize (Hx ltac:(rewrite !app_length, Hl; lia)).
  rewrite Hx in E2.
  destruct (extensions_of c g (compact_enc (N.of_nat (List.length call1)) ++ call1 ++ exts) _) as [xs|x| |].
  - destruct (call_of c (compact_enc (N.of_nat (List.length call1)) ++ call1 ++ exts) _), (call_of c (compact_enc (N.of_nat (List.length call2)) ++ call2 ++ exts) _);
      rewrite E1 in *; rewrite E2 in *; try reflexivity;
      try (destruct R1 as [(? & R1)|(? & R1)]; discriminate R1); try (destruct R2 as [(? & R2)|(? & R2)]; discriminate R2).
  - rewrite E1, E2. reflexivity.
  - rewrite E1 in R1. destruct R1 as [(? & R1)|(? & R1)]; discriminate R1.
  - rewrite E1 in R1. destruct R1 as [(? & R1)|(? & R1)]; discriminate R1.
Qed.

(** *** C23 *)

Theorem transaction_matches g data t : is_bytes data -> transaction c g data = Ok t ->
  exists mk, @mark_data ME data = Ok mk /\ extensions_match c g data (extensions_start mk) (tp_extensions t).
Proof.
  intros Hb. rewrite transaction_eq. destruct (@mark_data ME data) as [mk| | |]; try discriminate. intros H.
  exists mk. split; [reflexivity|]. pose proof (extensions_outcome c g data mk) as Ho.
  destruct (extensions_of c g data mk) as [xs| | |]; try discriminate. apply outcome_match.
  destruct (call_of c data mk); try discriminate; injection H as <-; exact Ho.
Qed.

(** *** Unmarked *)

Lemma unmarked_eq g data call xs : transaction_unmarked c g data = Ok (call, xs) <->
  exists id x q, ch_call c = inl id /\ decode_at types data id 0 = (Ok x, q) /\ x_data x = DCall call /\
    extensions_of c g data (Marked 0 q) = Ok xs.
Proof.
  unfold transaction_unmarked, result, parse_transaction_unmarked, extensions_of, result, decode_extensions.
  unfold bind at 1, at_local at 1. unfold bind at 1, decode_as_call_unmarked. cbn [chain_metadata m_call_ty m_types].
  destruct (ch_call c) as [id|x] eqn:Hc.
  2: { split; [intros H; discriminate H|]. intros (id & x0 & q & H & _). discriminate. }
  unfold bind at 1. cbn [lift ret]. unfold map_err at 1, ret at 1. unfold bind at 1, map_err at 1.
  pose proof (decode_at_fst types data id 0) as Hd.
  destruct (decode_with_type (slice_buffer data) (portable types) (Symbol id) propagated_new 0 tt) as [[o q] []].
  cbn [fst] in Hd. split.
  - intros H. destruct o as [x|x| |]; try discriminate H.
    destruct (x_data x) eqn:Hx; try discriminate H. unfold bind, ret, at_local in *. cbn [extensions_start].
    destruct (decode_extensions_unmarked (slice_buffer data) (chain_metadata c) g q tt) as [[[ys|y| |] q2] []] eqn:He; try discriminate H.
    cbn [fst] in H. injection H as -> ->. exists id, x, q. repeat split; auto. rewrite He. reflexivity.
  - intros (id' & x & q' & Hid & Hda & Hx & H). injection Hid as <-. rewrite Hd in Hda. injection Hda as -> ->. rewrite Hx.
    unfold bind, ret, at_local in *. cbn [extensions_start] in H.
    destruct (decode_extensions_unmarked (slice_buffer data) (chain_metadata c) g q' tt) as [[[ys|y| |] q2] []] eqn:He; try discriminate H.
    cbn in H |- *. congruence.
Qed.

Theorem unmarked_matches g data call xs : transaction_unmarked c g data = Ok (call, xs) ->
  exists id x q, ch_call c = inl id /\ decode_at types data id 0 = (Ok x, q) /\ x_data x = DCall call /\
    extensions_match c g data q xs.
Proof.
  rewrite unmarked_eq. intros (id & x & q & H1 & H2 & H3 & H4). exists id, x, q. repeat split; auto.
  apply outcome_match. pose proof (extensions_outcome c g data (Marked 0 q)) as Ho. rewrite H4 in Ho. exact Ho.
Qed.

(** *** C25 *)

Theorem marked_unmarked g cb eb call xs : fits U32 (N.of_nat (List.length cb)) = true -> is_bytes (cb ++ eb) ->
  transaction c g (compact_enc (N.of_nat (List.length cb)) ++ cb ++ eb) = Ok (TransactionParsed (inl call) xs) <->
  (transaction_unmarked c g (cb ++ eb) = Ok (call, xs) /\
   exists id x, ch_call c = inl id /\ decode_at types (cb ++ eb) id 0 = (Ok x, List.length cb)).
Proof.
  intros Hf Hb. rewrite transaction_eq, (mark_of cb eb Hf Hb). cbv zeta.
  set (head := compact_enc (N.of_nat (List.length cb))).
  assert (Hhb : is_bytes (head ++ cb)).
  { apply Forall_app. split; [apply (compact_enc_fits_is_bytes U32), Hf|]. apply Forall_app in Hb. apply Hb. }
  pose proof (extensions_shifted g cb (head ++ cb) eb (List.length head) (Marked 0 (List.length cb))
     (Marked (List.length head) (List.length (head ++ cb))) eq_refl eq_refl ltac:(rewrite app_length; lia)) as Hx.
  rewrite <- app_assoc in Hx. rewrite Hx.
  pose proof (call_answer c (head ++ cb ++ eb) (Marked (List.length head) (List.length (head ++ cb)))) as Hca.
  cbn [extensions_start call_start] in Hca. specialize (Hca ltac:(rewrite !app_length; lia)).
  assert (Hcut : firstn (List.length (head ++ cb)) (head ++ cb ++ eb) = head ++ cb) by (rewrite app_assoc; apply firstn_app_exact).
  assert (Hmove : forall id x, decode_at types (cb ++ eb) id 0 = (Ok x, List.length cb) <->
            decode_at types (head ++ cb) id (List.length head) = (Ok x, List.length (head ++ cb))).
  { intros id x. rewrite !decode_at_hinted.
    rewrite (hinted_iff types HNone (cb ++ eb) id 0 x (List.length cb) Hb).
    rewrite (hinted_iff types HNone (head ++ cb) id (List.length head) x (List.length (head ++ cb)) Hhb). unfold reads.
    assert (Hlen : forall bs : bytes, (List.length cb = 0 + List.length bs)%nat <-> List.length (head ++ cb) = (List.length head + List.length bs)%nat)
      by (intros bs; rewrite app_length; lia).
    assert (Hhas : forall bs, List.length cb = List.length bs -> has (cb ++ eb) 0 bs <-> has (head ++ cb) (List.length head) bs).
    { intros bs Hl. unfold has, slice. cbn [skipn]. rewrite skipn_app_exact, <- Hl, firstn_app_exact, firstn_all. tauto. }
    split; intros (v & bs & A & B & C & D & F); exists v, bs; repeat split; auto.
    - apply Hhas; [exact F|exact D].
    - apply Hlen. exact F.
    - apply Hhas; [|exact D]. apply Hlen in F. exact F.
    - apply Hlen. exact F. }
  split.
  - intros H. destruct (extensions_of c g (cb ++ eb) _) as [ys| | |] eqn:Hys; cbn [move_outcome] in H; try discriminate.
    destruct (call_of c _ _) as [d| | |]; try discriminate. injection H as -> ->.
    inversion Hca; subst. rewrite Hcut in *.
    match goal with A : decode_at _ _ _ _ = _ |- _ => apply Hmove in A; rename A into Hd end.
    split; [|eauto]. apply unmarked_eq. exists id, x, (List.length cb). auto.
  - intros [Hu (id & x & Hid & Hd)]. apply unmarked_eq in Hu. destruct Hu as (id' & x' & q & Hid' & Hd' & Hxd & Hex).
    assert (id' = id) by congruence. subst id'. rewrite Hd in Hd'. injection Hd' as <- <-. rewrite Hex. cbn [move_outcome].
    assert (Hcall : call_outcome c (head ++ cb ++ eb) (List.length head) (List.length (head ++ cb)) (Ok call)).
    { eapply CO_call; [exact Hid| |exact Hxd]. rewrite Hcut. apply Hmove. exact Hd. }
    rewrite (call_outcome_unique c _ _ _ _ _ Hca Hcall). reflexivity.
Qed.
End Exts.
