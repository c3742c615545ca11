(** The data of a marked transaction without its extensions. *)
From Coq Require Import Lia ZifyBool ZifyNat ZifyN.
From Verif Require Import Base Compact Types Indicators Decode Sign Spec SpecSign SpecSource Api ApiSign ProofBase
  ProofSafe ProofSafe2 ProofSign ProofSign2.
Local Open Scope list_scope.

Lemma mark_runs_any {E ME} (b : buffer E) p e : good_buffer b ->
  runs (fun mk q => call_start mk <= extensions_start mk <= total_len b /\ 0 < call_start mk) (@mark E ME b p e).
Proof.
  intros Hb. set (r := Registry E 0 (fun _ s => (inr (RExternal 0), s))).
  unfold mark. eapply runs_bind.
  { apply runs_map_err, runs_local. eapply post_runs, (get_compact_post b r Hb). }
  intros [n cs] q e1 (-> & Hq & Hn). cbn [fst snd] in *.
  eapply runs_bind.
  { apply runs_catch. eapply post_runs, (read_slice_post b r Hb). }
  intros [l|x] q e2 H; [|exact I]. apply runs_ret. cbn [call_start extensions_start].
  destruct H as (_ & _ & H1 & H2). lia.
Qed.

Lemma mark_stays {E ME} (b : buffer E) p e o p' e' : @mark E ME b p e = (o, p', e') -> p' = p.
Proof.
  unfold mark, bind, map_err, at_local, catch, read_slice.
  destruct (get_compact U32 b 0 e) as [[[n|x| |] q] e1]; try (intros [= _ <- _]; reflexivity).
  destruct (rd b q n e1) as [[l|x] e2]; intros [= _ <- _]; reflexivity.
Qed.

Lemma no_extensions_anywhere {E ME} (b : buffer E) p e mk p' e' : good_buffer b ->
  @mark E ME b p e = (Ok mk, p', e') ->
  p' = p /\ (0 < call_start mk <= extensions_start mk)%nat /\ (extensions_start mk <= total_len b)%nat /\
  exists part, data_no_extensions b mk = Some part /\ total_len part = extensions_start mk /\
    forall q n s,
      ((q + N.to_nat n <= extensions_start mk)%nat -> rd part q n s = rd b q n s) /\
      ((extensions_start mk < q + N.to_nat n)%nat -> exists x, rd part q n s = (inr x, s)).
Proof.
  intros Hb Hm. pose proof (mark_runs_any (ME := ME) b p e Hb) as H. rewrite Hm in H. destruct H as [H1 H2].
  split; [exact (mark_stays b p e _ p' e' Hm)|]. split; [lia|]. split; [lia|].
  unfold data_no_extensions, limit_length. destruct (Nat.ltb_spec (total_len b) (extensions_start mk)); [lia|].
  eexists. split; [reflexivity|]. split; [reflexivity|]. intros q n s. cbn [rd]. unfold limited_rd.
  destruct (Nat.ltb_spec (extensions_start mk) q).
  { split; intros; [lia|eexists; reflexivity]. }
  destruct (N.ltb_spec (N.of_nat (extensions_start mk)) (N.of_nat q + n)).
  { split; intros; [lia|eexists; reflexivity]. }
  split; intros; [reflexivity|lia].
Qed.

Lemma no_extensions_slice {ME} data mk : is_bytes data -> @mark_data ME data = Ok mk ->
  (0 < call_start mk <= extensions_start mk)%nat /\ (extensions_start mk <= List.length data)%nat /\
  @mark_data ME (firstn (extensions_start mk) data) = Ok mk /\
  exists part, data_no_extensions (@slice_buffer unit data) mk = Some part /\
    total_len part = extensions_start mk /\
    forall p n e, rd part p n e = rd (slice_buffer (firstn (extensions_start mk) data)) p n e.
Proof.
  intros Hd H. pose proof H as Hm. unfold mark_data, result in Hm.
  destruct (mark (slice_buffer data) 0 tt) as [[o q] u] eqn:He. cbn [fst] in Hm. subst o.
  destruct (no_extensions_anywhere _ _ _ _ _ _ (good_slice data) He) as (_ & H1 & H2 & part & Hp & Hl & _).
  cbn [total_len slice_buffer] in H2. split; [exact H1|]. split; [exact H2|]. split.
  - destruct (@mark_spec ME _ Hd) as [(n & call & rest & Hf & Hdat & Hn & Hm)|[_ Hm]]; rewrite Hm in H; [|discriminate].
    injection H as <-. cbn [extensions_start]. subst n data. rewrite app_assoc, firstn_app, Nat.sub_diag, firstn_O, app_nil_r, firstn_all.
    assert (Hc : is_bytes (call ++ [])).
    { rewrite app_nil_r. apply Forall_app in Hd as [_ Hd]. apply Forall_app in Hd. apply Hd. }
    pose proof (mark_of (ME := ME) call [] Hf Hc) as Hx. cbv zeta in Hx. rewrite app_nil_r in Hx. exact Hx.
  - exists part. split; [exact Hp|]. split; [exact Hl|]. intros p n e.
    unfold data_no_extensions, limit_length in Hp. destruct (Nat.ltb _ _); [discriminate Hp|]. injection Hp as <-.
    cbn [rd]. unfold limited_rd. cbn [rd slice_buffer]. unfold slice_rd. rewrite firstn_length, Nat.min_l by lia.
    destruct (Nat.ltb_spec (extensions_start mk) p); [reflexivity|].
    destruct (N.ltb_spec (N.of_nat (extensions_start mk)) (N.of_nat p + n)); [reflexivity|].
    destruct (Nat.ltb_spec (List.length data) p); [lia|].
    destruct (N.ltb_spec (N.of_nat (List.length data)) (N.of_nat p + n)); [lia|].
    unfold slice. rewrite skipn_firstn_comm, firstn_firstn. rewrite Nat.min_l by lia. reflexivity.
Qed.
