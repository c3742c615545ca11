(** C51 for the functions of the API. *)
From Coq Require Import Lia.
From Verif Require Import Base Compact Types Indicators Decode Sign Unchecked Storage Spec SpecWf SpecSource SpecReach SpecTrim
  SpecSign SpecUnchecked ProofBase ProofTables ProofFuel ProofSafe ProofSafe2 ProofRead ProofSpec ProofTrim ProofCor ProofSign2 Api ApiSign ApiStorage.
Local Open Scope list_scope.

(** From runs to outcomes. *)
Lemma tr_outcome {X A} (wrap : parser_err -> X) (m1 m2 : M unit X A) p :
  tr (fun x => exists y, x = wrap y /\ unknown_variant y) eq m1 m2 -> fst (fst (m1 p tt)) <> OutOfFuel ->
  same_or_unknown wrap (fst (fst (m1 p tt))) (fst (fst (m2 p tt))) /\
  (forall a, fst (fst (m1 p tt)) = Ok a -> m1 p tt = m2 p tt).
Proof.
  intros H Hf. specialize (H p). destruct (m1 p tt) as [[[a|x| |] q] []]; cbn [fst] in *.
  - destruct H as (a2 & -> & <-). split; [left; reflexivity|reflexivity].
  - split; [|intros a Ha; discriminate Ha]. destruct H as [(y & -> & n & ->)|H]; [right; eauto|left; congruence].
  - split; [left; congruence|intros a Ha; discriminate Ha].
  - destruct (Hf eq_refl).
Qed.

Lemma tr_at_local {X A1 A2} (bad : X -> Prop) (R : A1 -> A2 -> Prop) n (m1 : M unit X A1) m2 :
  tr bad R m1 m2 -> tr bad (fun x y => R (fst x) (fst y) /\ snd x = snd y) (at_local n m1) (at_local n m2).
Proof.
  intros H p. specialize (H n). unfold at_local. destruct (m1 n tt) as [[[a|x| |] q] []].
  - destruct H as (a2 & -> & H). eauto.
  - destruct H as [H|H]; [left; exact H|right]. destruct (m2 n tt) as [[[]]]; cbn in *; congruence.
  - destruct (m2 n tt) as [[[]]]; cbn in *; congruence.
  - exact I.
Qed.

Lemma tr_fst {X A} (bad : X -> Prop) n (m1 m2 : M unit X A) : tr bad eq m1 m2 ->
  tr bad eq (do x <- at_local n m1; ret (fst x)) (do x <- at_local n m2; ret (fst x)).
Proof. intros H. eapply tr_bind; [apply tr_at_local, H|]. intros [a q] [a2 q2] [Ha _]. cbn [fst] in *. subst a2. apply tr_refl. Qed.

Lemma tr_wrap {X A1 A2} (wrap : parser_err -> X) (R : A1 -> A2 -> Prop) m1 m2 : tr unknown_variant R m1 m2 ->
  tr (fun x => exists y, x = wrap y /\ unknown_variant y) R (map_err wrap m1) (map_err wrap m2).
Proof. apply tr_map_err. eauto. Qed.

Section Types.
Variable data : bytes.
Variables types1 types2 : list ty.
Variable S : N -> Prop.
Hypothesis HT : trimmed_types S types1 types2.
Local Notation b := (@slice_buffer unit data).
Local Notation r1 := (@portable unit types1).
Local Notation r2 := (@portable unit types2).

Lemma all_trim id : S id -> tr unknown_variant eq (decode_all_body b r1 id) (decode_all_body b r2 id).
Proof.
  intros H. unfold decode_all_body. eapply tr_bind; [apply tr_refl|]. intros ? ? _.
  eapply tr_bind; [exact (with_type_trim data types1 types2 S HT id propagated_new H)|]. intros x ? <-. apply tr_refl.
Qed.

Lemma decode_at_trim id pos o1 q1 o2 q2 : S id ->
  decode_at types1 data id pos = (o1, q1) -> decode_at types2 data id pos = (o2, q2) ->
  same_or_unknown (fun x => x) o1 o2 /\ (forall x, o1 = Ok x -> q1 = q2).
Proof.
  intros Hid H1 H2. rewrite decode_at_fst in H1, H2.
  pose proof (with_type_trim data types1 types2 S HT id propagated_new Hid) as Ht.
  pose proof (hinted_returns types1 HNone data id pos) as Hr. rewrite <- decode_at_hinted, decode_at_fst in Hr.
  unfold same_or_unknown. specialize (Ht pos).
  destruct (decode_with_type b r1 (Symbol id) propagated_new pos tt) as [[p1 k1] e1].
  destruct (decode_with_type b r2 (Symbol id) propagated_new pos tt) as [[p2 k2] e2].
  cbn [fst] in *. injection H1 as <- <-. injection H2 as <- <-. destruct p1 as [a|x| |].
  - destruct Ht as (a2 & Ha & <-). injection Ha as <- <- _. split; [left; reflexivity|]. intros x Hx. reflexivity.
  - split; [|discriminate]. destruct Ht as [(n & ->)|Ht]; [right; eauto|left; congruence].
  - split; [left; congruence|discriminate].
  - destruct Hr as [(? & Hr)|(? & Hr)]; discriminate Hr.
Qed.

Lemma all_returns id : fst (fst (decode_all_body b r1 id 0%nat tt)) <> OutOfFuel.
Proof.
  unfold decode_all_body, decode_as_type_at_position. unfold bind at 1, set_pos. unfold bind at 1.
  pose proof (hinted_returns types1 HNone data id 0) as Hr. rewrite <- decode_at_hinted, decode_at_fst in Hr.
  destruct (decode_with_type b r1 (Symbol id) propagated_new 0%nat tt) as [[o q] e]. cbn [fst] in *.
  destruct Hr as [(x & Hr)|(x & Hr)]; rewrite Hr; [|discriminate]. unfold bind, get_pos. destruct (Nat.eqb _ _); discriminate.
Qed.

Lemma decode_all_trim id : S id -> same_or_unknown (fun x => x) (decode_all types1 data id) (decode_all types2 data id).
Proof.
  intros Hid. unfold decode_all, decode_all_as_type.
  destruct (tr_outcome (fun x => x) (decode_all_body b r1 id) (decode_all_body b r2 id) 0%nat) as [H _].
  - intros p. pose proof (all_trim id Hid p) as H. destruct (decode_all_body b r1 id p tt) as [[[a|x| |] q] e]; try exact H.
    destruct H as [H|H]; [left; eauto|right; exact H].
  - apply all_returns.
  - destruct (decode_all_body b r1 id 0%nat tt) as [[o1 q1] e1], (decode_all_body b r2 id 0%nat tt) as [[o2 q2] e2]. exact H.
Qed.

Lemma extensions_loop_trim l : Forall (fun x => S (snd x)) l ->
  tr unknown_variant eq (extensions_loop b r1 l) (extensions_loop b r2 l).
Proof.
  induction 1 as [|[i id] l Hx _ IH]; cbn [extensions_loop]; [apply tr_refl|].
  eapply tr_bind; [exact (with_type_trim data types1 types2 S HT id _ Hx)|]. intros x ? <-.
  eapply tr_bind; [exact IH|]. intros y ? <-. apply tr_refl.
Qed.
End Types.

Section Keys.
Variables blake2_128 twox_64 : bytes -> bytes.
Variables types1 types2 : list ty.
Variable S : N -> Prop.
Hypothesis HT : trimmed_types S types1 types2.
Local Notation r1 := (@portable unit types1).
Local Notation r2 := (@portable unit types2).
Local Notation bad := (fun x => (exists y, x = ParsingKey y /\ unknown_variant y) \/ (exists y, x = ParsingValue y /\ unknown_variant y)).

Lemma tr_key {A1 A2} (R : A1 -> A2 -> Prop) m1 m2 : tr unknown_variant R m1 m2 -> tr bad R (map_err ParsingKey m1) (map_err ParsingKey m2).
Proof. apply tr_map_err. eauto. Qed.

Lemma tr_value {A1 A2} (R : A1 -> A2 -> Prop) m1 m2 : tr unknown_variant R m1 m2 -> tr bad R (map_err ParsingValue m1) (map_err ParsingValue m2).
Proof. apply tr_map_err. eauto. Qed.

Lemma key_part_trim data h id : S id ->
  tr bad eq (key_part_decode blake2_128 twox_64 h id (slice_buffer data) r1) (key_part_decode blake2_128 twox_64 h id (slice_buffer data) r2).
Proof.
  intros Hid.
  assert (C : forall len hash, tr bad eq (check_hash len hash id (slice_buffer data) r1) (check_hash len hash id (slice_buffer data) r2)).
  { intros len hash. unfold check_hash. eapply tr_bind; [apply tr_refl|]. intros p ? <-. eapply tr_bind; [apply tr_refl|]. intros s ? <-.
    destruct (_ =? _)%N; [|apply tr_refl]. eapply tr_bind; [apply tr_refl|]. intros ? ? _.
    eapply tr_bind; [apply tr_key; exact (with_type_trim data types1 types2 S HT id propagated_new Hid)|]. intros x ? <-. apply tr_refl. }
  destruct h; cbn [key_part_decode]; try apply tr_refl; try apply C.
  eapply tr_bind; [apply tr_key; exact (with_type_trim data types1 types2 S HT id propagated_new Hid)|]. intros x ? <-. apply tr_refl.
Qed.

Lemma key_parts_trim data : forall hs ids, Forall S ids ->
  tr bad eq (key_parts blake2_128 twox_64 hs ids (slice_buffer data) r1) (key_parts blake2_128 twox_64 hs ids (slice_buffer data) r2).
Proof.
  induction hs as [|h hs IH]; intros ids Hi; [apply tr_refl|]. destruct Hi as [|id ids Hid Hi]; [apply tr_refl|].
  cbn [key_parts]. eapply tr_bind; [apply key_part_trim; assumption|]. intros x ? <-.
  eapply tr_bind; [apply IH, Hi|]. intros y ? <-. apply tr_refl.
Qed.

Lemma storage_trim_run key value entry : entry_in r1 S (en_ty entry) ->
  tr bad eq (decode_as_storage_entry blake2_128 twox_64 (slice_buffer key) (slice_buffer value) entry r1)
            (decode_as_storage_entry blake2_128 twox_64 (slice_buffer key) (slice_buffer value) entry r2).
Proof.
  intros He. unfold decode_as_storage_entry. destruct (Nat.ltb _ _); [apply tr_refl|].
  assert (V : forall id, S id -> tr unknown_variant eq (decode_all_m (slice_buffer value) r1 id) (decode_all_m (slice_buffer value) r2 id)).
  { intros id Hid. unfold decode_all_m. apply tr_fst, (all_trim value types1 types2 S HT id Hid). }
  destruct (en_ty entry) as [vt|hashers kt vt]; cbn [entry_in] in He.
  - destruct (negb _); [apply tr_refl|]. eapply tr_bind; [apply tr_value, V, He|]. intros x ? <-. apply tr_refl.
  - destruct He as (Hkey & Hval & Ht). eapply tr_bind with (P := eq).
    + unfold process_key_mapped. apply tr_fst. unfold process_key_body. eapply tr_bind with (P := eq).
      2: { intros x ? <-. apply tr_refl. }
      assert (T : tr bad eq
        (do t <- map_err (fun x => ParsingKey (PRegistry x)) (resolve_ty r1 kt);
         match t_def t with
         | TTuple elems =>
             if Nat.eqb (List.length elems) (List.length hashers)
             then do content <- key_parts blake2_128 twox_64 hashers elems (slice_buffer key) r1; ret (KTuple content (info_from_ty t))
             else fail MultipleHashesNumberMismatch
         | _ => fail MultipleHashesNotATuple
         end)
        (do t <- map_err (fun x => ParsingKey (PRegistry x)) (resolve_ty r2 kt);
         match t_def t with
         | TTuple elems =>
             if Nat.eqb (List.length elems) (List.length hashers)
             then do content <- key_parts blake2_128 twox_64 hashers elems (slice_buffer key) r2; ret (KTuple content (info_from_ty t))
             else fail MultipleHashesNumberMismatch
         | _ => fail MultipleHashesNotATuple
         end)).
      { eapply tr_bind with (P := fun t1 t2 => trimmed t1 t2 /\ forall ids, t_def t1 = TTuple ids -> Forall S ids).
        - apply ex_tr, ex_map_err. intros p. pose proof (resolve_trim types1 types2 S HT kt Hkey p) as H.
          unfold resolve_ty in *. specialize (Ht tt).
          destruct (resolve r1 kt tt) as [[t1|x1] []], (resolve r2 kt tt) as [[t2|x2] []]; try exact H.
          destruct H as [H [Htr _]]. split; [exact H|]. split; [exact Htr|]. intros ids Hids. exact (Ht t1 tt ids eq_refl Hids).
        - intros t1 t2 [Htr Hids]. destruct (trimmed_def _ _ Htr) as [(l1 & l2 & E1 & E2 & _)|[_ E2]]; [rewrite E1, E2; apply tr_refl|].
          rewrite E2. destruct (t_def t1) as [| | | |ids| | |] eqn:Ed; try apply tr_refl.
          destruct (Nat.eqb _ _); [|apply tr_refl]. rewrite <- (trimmed_info _ _ Htr).
          eapply tr_bind; [apply key_parts_trim, Hids, eq_refl|]. intros x ? <-. apply tr_refl. }
      destruct hashers as [|h [|h' hs]]; [exact T| |exact T].
      eapply tr_bind; [apply key_part_trim; assumption|]. intros x ? <-. apply tr_refl.
    + intros k ? <-. eapply tr_bind; [apply tr_value, V, Hval|]. intros x ? <-. apply tr_refl.
Qed.

Lemma storage_trim key value entry : entry_in r1 S (en_ty entry) ->
  same_or_unknown ParsingKey (storage_entry blake2_128 twox_64 types1 key value entry) (storage_entry blake2_128 twox_64 types2 key value entry) \/
  same_or_unknown ParsingValue (storage_entry blake2_128 twox_64 types1 key value entry) (storage_entry blake2_128 twox_64 types2 key value entry).
Proof.
  intros He. pose proof (storage_trim_run key value entry He 0%nat) as H. unfold storage_entry, same_or_unknown.
  pose proof (storage_runs blake2_128 twox_64 (slice_buffer key) r1 (good_slice key) (readable_slice key) (good_portable types1)
    (slice_buffer value) entry 0%nat tt (good_slice value)) as Hr.
  destruct (decode_as_storage_entry blake2_128 twox_64 (slice_buffer key) (slice_buffer value) entry r1 0%nat tt) as [[[a|x| |] q] e];
    try destruct Hr; cbn [fst].
  - destruct H as (a2 & -> & <-). left. left. reflexivity.
  - destruct H as [[(y & -> & n & ->)|(y & -> & n & ->)]|H]; [left; right; eauto|right; right; eauto|left; left; congruence].
Qed.
End Keys.

Section Metadata.
Context {ME : Type}.
Variables c1 c2 : chain ME.
Variable S : N -> Prop.
Hypothesis HC : trimmed_chain S c1 c2.
Variable data : bytes.
Local Notation b := (@slice_buffer unit data).
Local Notation m1 := (chain_metadata c1).
Local Notation m2 := (chain_metadata c2).
Local Notation HT := (tc_types S c1 c2 HC).
Local Notation bad := (fun x : signable_err ME => exists y, x = Parsing y /\ unknown_variant y).

Lemma call_unmarked_trim : tr bad eq (decode_as_call_unmarked b m1) (decode_as_call_unmarked b m2).
Proof.
  unfold decode_as_call_unmarked. cbn [chain_metadata m_call_ty m_types]. rewrite <- (tc_call _ _ _ HC).
  pose proof (tc_call_in _ _ _ HC) as Hi.
  eapply tr_bind with (P := fun x y => x = y /\ S x).
  - destruct (ch_call c1) as [id|x]; [|apply tr_fail]. intros p. cbn. exists id. split; [reflexivity|]. auto.
  - intros id ? [<- Hid]. eapply tr_bind; [apply tr_wrap; exact (with_type_trim data _ _ S HT id propagated_new Hid)|].
    intros x ? <-. apply tr_refl.
Qed.

Lemma extensions_unmarked_trim g : tr bad eq (decode_extensions_unmarked b m1 g) (decode_extensions_unmarked b m2 g).
Proof.
  unfold decode_extensions_unmarked. cbn [chain_metadata m_signed_extensions m_spec_name_version m_types].
  rewrite <- (tc_extensions _ _ _ HC), <- (tc_spec _ _ _ HC).
  pose proof (tc_extensions_in _ _ _ HC) as Hi.
  eapply tr_bind with (P := fun x y => x = y /\ Forall (fun x => S (em_ty x) /\ S (em_additional x)) x).
  - destruct (ch_extensions c1) as [l|x]; [|apply tr_fail]. intros p. cbn. exists l. split; [reflexivity|]. split; [reflexivity|].
    apply Forall_forall. intros x Hx. exact (Hi l x eq_refl Hx).
  - intros l ? [<- Hl]. eapply tr_bind; [apply tr_wrap; apply (extensions_loop_trim data _ _ S HT)|].
    + apply Forall_forall. intros [i id] Hin. unfold extension_types in Hin. apply in_app_or in Hin. rewrite Forall_forall in Hl.
      destruct Hin as [Hin|Hin]; apply in_map_iff in Hin; destruct Hin as (x & Hx & Hin); injection Hx as _ <-;
        destruct (Hl x Hin); assumption.
    + intros x ? <-. apply tr_refl.
Qed.

Lemma extensions_trim mk g : tr bad eq (decode_extensions b mk m1 g) (decode_extensions b mk m2 g).
Proof.
  unfold decode_extensions. eapply tr_bind; [apply tr_at_local, extensions_unmarked_trim|].
  intros [x q] [y q2] [H1 H2]. cbn [fst snd] in *. subst y q2. apply tr_refl.
Qed.

Lemma unmarked_trim g : same_or_unknown Parsing (transaction_unmarked c1 g data) (transaction_unmarked c2 g data).
Proof.
  unfold transaction_unmarked, result. eapply tr_outcome.
  - unfold parse_transaction_unmarked. apply tr_fst. eapply tr_bind; [apply call_unmarked_trim|]. intros x ? <-.
    eapply tr_bind; [apply extensions_unmarked_trim|]. intros y ? <-. apply tr_refl.
  - pose proof (transaction_unmarked_runs b m1 (good_slice data) (good_portable _) g 0%nat tt) as H. intros Ho.
    destruct (parse_transaction_unmarked b m1 g 0%nat tt) as [[o q] e]. cbn in Ho. subst o. exact H.
Qed.

Lemma unchecked_trim : same_or_unknown UParsing (unchecked_extrinsic c1 data) (unchecked_extrinsic c2 data).
Proof.
  unfold unchecked_extrinsic, result. eapply tr_outcome.
  - unfold decode_as_unchecked_extrinsic. apply tr_fst. unfold decode_unchecked_body.
    cbn [chain_metadata m_extrinsic_type_params m_extrinsic_version m_types].
    rewrite <- (tc_params _ _ _ HC), <- (tc_version _ _ _ HC). pose proof (tc_params_in _ _ _ HC) as Hi.
    eapply tr_bind with (P := fun x y => x = y /\ S (ep_address x) /\ S (ep_call x) /\ S (ep_signature x) /\ S (ep_extra x)).
    + destruct (ch_params c1) as [ps|x]; [|apply tr_fail]. intros p. cbn. exists ps. split; [reflexivity|]. auto.
    + intros ps ? (<- & Ha & Hc & Hs & Hx).
      assert (T : forall id, S id -> tr (fun x => exists y, x = UParsing y /\ unknown_variant y) eq
        (map_err (@UParsing ME) (decode_as_type_at_position b (portable (ch_types c1)) id))
        (map_err UParsing (decode_as_type_at_position b (portable (ch_types c2)) id))).
      { intros id Hid. apply tr_wrap. exact (with_type_trim data _ _ S HT id propagated_new Hid). }
      eapply tr_bind; [apply tr_refl|]. intros n ? <-. eapply tr_bind; [apply tr_refl|]. intros st ? <-.
      cbv zeta. destruct (_ <? _)%N; [apply tr_refl|]. destruct (_ <? _)%N; [apply tr_refl|].
      eapply tr_bind; [apply tr_refl|]. intros vb ? <-. eapply tr_bind; [apply tr_refl|]. intros ? ? _.
      eapply tr_bind; [apply tr_refl|]. intros v ? <-. destruct (negb _); [apply tr_refl|].
      destruct (_ =? _)%N; [eapply tr_bind; [apply T, Hc|]; intros x ? <-; apply tr_refl|].
      eapply tr_bind; [apply T, Ha|]. intros a ? <-. eapply tr_bind; [apply T, Hs|]. intros s ? <-.
      eapply tr_bind; [apply T, Hx|]. intros x ? <-. eapply tr_bind; [apply T, Hc|]. intros y ? <-. apply tr_refl.
  - pose proof (unchecked_runs b m1 (good_slice data) (good_portable _) 0%nat tt) as H. intros Ho.
    destruct (decode_as_unchecked_extrinsic b m1 0%nat tt) as [[o q] e]. cbn in Ho. subst o. exact H.
Qed.

(** Marked transactions: the call is parsed separately. *)
Lemma call_trim mk : (extensions_start mk <= List.length data)%nat ->
  same_or_unknown Parsing (call_of c1 data mk) (call_of c2 data mk).
Proof.
  intros Hn. pose proof (call_answer c1 data mk Hn) as H1. pose proof (call_answer c2 data mk Hn) as H2.
  remember (call_of c1 data mk) as o1. remember (call_of c2 data mk) as o2. clear Heqo1 Heqo2.
  pose proof (decode_at_trim (firstn (extensions_start mk) data) (ch_types c1) (ch_types c2) S HT) as D.
  pose proof (tc_call_in _ _ _ HC) as Hin. pose proof (tc_call _ _ _ HC) as Hcall.
  assert (U : call_outcome c2 data (call_start mk) (extensions_start mk) o1 -> same_or_unknown Parsing o1 o2).
  { intros H. left. exact (call_outcome_unique c2 data _ _ o1 o2 H H2). }
  destruct H1 as [x Hx|id x q Hc Hd|id x q Hc Hd Hno|id x q d Hc Hd Hx Hq|id x d Hc Hd Hx].
  - apply U. apply CO_metadata. rewrite <- Hcall. exact Hx.
  - destruct (decode_at (ch_types c2) (firstn (extensions_start mk) data) id (call_start mk)) as [o q2] eqn:Hd2.
    destruct (D id _ _ _ _ _ (Hin _ Hc) Hd Hd2) as [[<-|(n & Hn')] _].
    + apply U. eapply CO_undecodable; [rewrite <- Hcall; exact Hc|exact Hd2].
    + injection Hn' as ->. right. exists n. reflexivity.
  - destruct (decode_at (ch_types c2) (firstn (extensions_start mk) data) id (call_start mk)) as [o q2] eqn:Hd2.
    destruct (D id _ _ _ _ _ (Hin _ Hc) Hd Hd2) as [[<-|(n & Hn')] Hq]; [|discriminate Hn'].
    apply U. eapply CO_not_a_call; [rewrite <- Hcall; exact Hc|exact Hd2|exact Hno].
  - destruct (decode_at (ch_types c2) (firstn (extensions_start mk) data) id (call_start mk)) as [o q2] eqn:Hd2.
    destruct (D id _ _ _ _ _ (Hin _ Hc) Hd Hd2) as [[<-|(n & Hn')] Hq2]; [|discriminate Hn'].
    specialize (Hq2 x eq_refl). subst q2.
    apply U. eapply CO_unused; [rewrite <- Hcall; exact Hc|exact Hd2|exact Hx|exact Hq].
  - destruct (decode_at (ch_types c2) (firstn (extensions_start mk) data) id (call_start mk)) as [o q2] eqn:Hd2.
    destruct (D id _ _ _ _ _ (Hin _ Hc) Hd Hd2) as [[<-|(n & Hn')] Hq2]; [|discriminate Hn'].
    specialize (Hq2 x eq_refl). subst q2.
    apply U. eapply CO_call; [rewrite <- Hcall; exact Hc|exact Hd2|exact Hx].
Qed.

Lemma call_at (m : metadata unit ME) mk p : decode_as_call b mk m p tt = (fst (fst (decode_as_call b mk m 0%nat tt)), p, tt).
Proof.
  unfold decode_as_call, data_no_extensions. destruct (limit_length b _) as [b'|]; [|reflexivity]. unfold bind, at_local.
  destruct (decode_as_call_unmarked b' m (call_start mk) tt) as [[[x|x| |] q] []]; try reflexivity.
  destruct (Nat.eqb _ _); reflexivity.
Qed.

Lemma transaction_trim g : same_transaction (transaction c1 g data) (transaction c2 g data).
Proof.
  unfold transaction, result, parse_transaction.
  pose proof (transaction_runs b m1 (good_slice data) (good_portable _) g 0%nat tt) as Hrun. unfold parse_transaction in Hrun.
  assert (T : tr bad (fun t1 t2 => tp_extensions t1 = tp_extensions t2 /\
      (tp_call t1 = tp_call t2 \/ exists p, tp_call t1 = inr (Parsing (UnexpectedEnumVariant p))))
    (do mk <- mark b; do extensions <- decode_extensions b mk m1 g; do call_result <- catch (decode_as_call b mk m1);
       ret (TransactionParsed call_result extensions))
    (do mk <- mark b; do extensions <- decode_extensions b mk m2 g; do call_result <- catch (decode_as_call b mk m2);
       ret (TransactionParsed call_result extensions))).
  { eapply tr_bind with (P := fun x y => x = y /\ (extensions_start x <= List.length data)%nat).
    - intros p. pose proof (mark_runs b m1 (good_slice data) p tt) as H.
      destruct (@mark unit ME b p tt) as [[[mk|x| |] q] []]; try destruct H; auto.
      exists mk. split; [reflexivity|]. split; [reflexivity|]. cbn [total_len slice_buffer] in *. lia.
    - intros mk ? [<- Hn]. eapply tr_bind; [apply extensions_trim|]. intros xs ? <-. intros p. unfold bind, catch.
      rewrite (call_at m1 mk p), (call_at m2 mk p). pose proof (call_trim mk Hn) as Hc. unfold call_of, result in Hc.
      pose proof (call_runs b m1 (good_slice data) (good_portable _) mk 0%nat tt Hn) as Hr.
      destruct (decode_as_call b mk m1 0%nat tt) as [[[d|x| |] q1] e1]; cbn [fst] in *; try destruct Hr.
      + exists (TransactionParsed (inl d) xs). destruct Hc as [Hc|(n & Hc)]; [|discriminate Hc]. rewrite <- Hc.
        split; [reflexivity|]. split; [reflexivity|left; reflexivity].
      + destruct Hc as [Hc|(n & Hc)].
        * rewrite <- Hc. eexists. split; [reflexivity|]. split; [reflexivity|left; reflexivity].
        * injection Hc as ->.
          pose proof (call_runs b m2 (good_slice data) (good_portable _) mk 0%nat tt Hn) as Hr2.
          destruct (decode_as_call b mk m2 0%nat tt) as [[[d2|x2| |] q2] e2]; cbn [fst] in *; try destruct Hr2.
          -- eexists. split; [reflexivity|]. split; [reflexivity|right; exists n; reflexivity].
          -- eexists. split; [reflexivity|]. split; [reflexivity|right; exists n; reflexivity]. }
  unfold same_transaction. specialize (T 0%nat).
  match goal with |- match fst (fst ?x) with _ => _ end => destruct x as [[[t1|x1| |] q1] e1]; cbn [fst]; try destruct Hrun end.
  - destruct T as (t2 & -> & H). exact H.
  - destruct T as [(y & -> & n & ->)|T]; [right; exists n; reflexivity|left; congruence].
Qed.
End Metadata.
