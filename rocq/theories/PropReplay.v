(** C75: a transaction belongs to one chain and one runtime version.  Only statements, short
    proofs and examples; the rules are those of SpecSign.v.

    A transaction accepted for one genesis hash is rejected, with the error that says so, for
    any other, and for any other runtime version of a chain with the same types; a genesis hash
    that is not given is not checked; the name of the chain is never checked. *)
From Verif Require Import Base Compact Types Indicators Decode Sign Spec SpecSign Api ApiSign ProofBase ProofSign ProofSign2 Sample SampleChain.
Local Open Scope string_scope.
Local Open Scope list_scope.

(** The same metadata, but for name and version of the runtime. *)
Definition with_spec {ME} (c : chain ME) (nv : spec_name_version) : chain ME :=
  Chain ME (ch_types c) (inl nv) (ch_call c) (ch_extensions c) (ch_params c) (ch_version c).

(** ** Proofs *)

Section Chain.
Context {ME : Type}.
Variable c : chain ME.

Lemma accepted g data mk xs : extensions_of c g data mk = Ok xs <->
  extensions_match c g data (extensions_start mk) xs.
Proof.
  split.
  - intros H. pose proof (extensions_outcome c g data mk) as Ho. rewrite H in Ho. inversion Ho as [| | | | |l xs' nv Hl Hr Hs Hj]; subst.
    inversion Hj as [| | | | | |v gh (_ & _ & N3 & N4) H1 H2 H3 H4 H5]; subst. exists l, nv, v, gh. repeat (split; [assumption|]). exact H5.
  - intros (l & nv & v & gh & Hl & Hs & Hr & Hv & Hd & Hg & Hm & He & Hb & Hi).
    apply (extension_outcome_unique c g data (extensions_start mk)); [apply extensions_outcome|].
    eapply EO_accepted; eauto. eapply J_accepted; eauto. unfold no_repetition. rewrite Hv, Hg. cbn [List.length]. auto.
Qed.

Lemma other_genesis g g' data mk xs : extensions_of c (Some g) data mk = Ok xs -> g' <> g ->
  extensions_of c (Some g') data mk = Err (WrongGenesisHash g g').
Proof.
  intros H Hn. apply accepted in H. destruct H as (l & nv & v & gh & Hl & Hs & Hr & Hv & Hd & Hg & Hm & He & Hb & Hi).
  cbn [genesis_matches] in Hm. subst gh. apply (extension_outcome_unique c (Some g') data (extensions_start mk)); [apply extensions_outcome|].
  eapply EO_rejected; eauto. eapply J_wrong_genesis; eauto. unfold no_repetition. rewrite Hv, Hg. cbn [List.length]. auto.
Qed.

Lemma some_genesis data mk xs : extensions_of c None data mk = Ok xs <-> exists g, extensions_of c (Some g) data mk = Ok xs.
Proof.
  split.
  - intros H. apply accepted in H. destruct H as (l & nv & v & gh & Hl & Hs & Hr & Hv & Hd & Hg & Hm & He & Hb & Hi).
    exists gh. apply accepted. exists l, nv, v, gh. repeat (split; [assumption|]). split; [reflexivity|]. auto.
  - intros (g & H). apply accepted in H. destruct H as (l & nv & v & gh & Hl & Hs & Hr & Hv & Hd & Hg & Hm & He & Hb & Hi).
    apply accepted. exists l, nv, v, gh. repeat (split; [assumption|]). split; [exact I|]. auto.
Qed.

Lemma other_version g g' data mk xs nv nv' : ch_spec c = inl nv -> extensions_of c g data mk = Ok xs ->
  printed_spec_version nv' <> printed_spec_version nv ->
  extensions_of (with_spec c nv') g' data mk = Err (WrongSpecVersion (printed_spec_version nv) (printed_spec_version nv')).
Proof.
  intros Hnv H Hn. apply accepted in H. destruct H as (l & nv0 & v & gh & Hl & Hs & Hr & Hv & Hd & Hg & Hm & He & Hb & Hi).
  rewrite Hnv in Hs. injection Hs as <-.
  apply (extension_outcome_unique (with_spec c nv') g' data (extensions_start mk)); [apply extensions_outcome|].
  eapply EO_rejected; [exact Hl|exact Hr|reflexivity|]. rewrite <- Hd. eapply J_wrong_version; [|exact Hv|congruence].
  unfold no_repetition. rewrite Hv, Hg. cbn [List.length]. auto.
Qed.

Lemma unmarked_stops g data e : (exists id x q call, ch_call c = inl id /\ decode_at (ch_types c) data id 0 = (Ok x, q) /\
    x_data x = DCall call /\ extensions_of c g data (Marked 0 q) = Err e) -> transaction_unmarked c g data = Err e.
Proof.
  intros (id & x & q & call & Hc & Hd & Hx & He).
  unfold transaction_unmarked, result, parse_transaction_unmarked. unfold extensions_of, result, decode_extensions in He.
  unfold bind at 1, at_local at 1. unfold bind at 1, decode_as_call_unmarked. cbn [chain_metadata m_call_ty m_types].
  rewrite Hc. unfold bind at 1. cbn [lift ret]. unfold map_err at 1, ret at 1. unfold bind at 1, map_err at 1.
  pose proof (decode_at_fst (ch_types c) data id 0) as Hf. rewrite Hd in Hf.
  destruct (decode_with_type (slice_buffer data) (portable (ch_types c)) (Symbol id) propagated_new 0 tt) as [[o q'] []].
  cbn [fst] in Hf. injection Hf as <- <-. rewrite Hx. unfold bind, ret, at_local in *. cbn [extensions_start] in He.
  destruct (decode_extensions_unmarked (slice_buffer data) (chain_metadata c) g q tt) as [[[ys|y| |] q2] []] eqn:Hy; try discriminate He.
  cbn in He |- *. congruence.
Qed.
End Chain.

Lemma extensions_name {ME} (c : chain ME) g data mk nv nv' : printed_spec_version nv = printed_spec_version nv' ->
  extensions_of (with_spec c nv) g data mk = extensions_of (with_spec c nv') g data mk.
Proof.
  intros H. apply (extension_outcome_unique (with_spec c nv') g data (extensions_start mk)); [|apply extensions_outcome].
  pose proof (extensions_outcome (with_spec c nv) g data mk) as Ho. inversion Ho; subst; cbn [with_spec ch_spec ch_types ch_extensions] in *.
  - eapply EO_metadata; eassumption.
  - eapply EO_undecodable; eassumption.
  - eapply EO_unused; eassumption.
  - discriminate.
  - match goal with E : inl _ = inl _ |- _ => injection E as <- end. rewrite H in *. eapply EO_rejected; try eassumption. reflexivity.
  - match goal with E : inl _ = inl _ |- _ => injection E as <- end. rewrite H in *. eapply EO_accepted; try eassumption. reflexivity.
Qed.

(** ** Statements *)

(** Another genesis hash: rejected, and the error names both. *)
Theorem c75_other_genesis : forall ME (c : chain ME) g g' data t, g' <> g ->
  transaction c (Some g) data = Ok t -> transaction c (Some g') data = Err (WrongGenesisHash g g').
Proof.
  intros ME c g g' data t Hn. rewrite !transaction_eq. destruct (mark_data data) as [mk| | |]; try discriminate.
  destruct (extensions_of c (Some g) data mk) as [xs| | |] eqn:Hx; try discriminate. intros _.
  rewrite (other_genesis c g g' data mk xs Hx Hn). reflexivity.
Qed.
Print Assumptions c75_other_genesis.

Theorem c75_other_genesis_unmarked : forall ME (c : chain ME) g g' data call xs, g' <> g ->
  transaction_unmarked c (Some g) data = Ok (call, xs) -> transaction_unmarked c (Some g') data = Err (WrongGenesisHash g g').
Proof.
  intros ME c g g' data call xs Hn H. apply unmarked_eq in H. destruct H as (id & x & q & H1 & H2 & H3 & H4).
  apply unmarked_stops. exists id, x, q, call. repeat (split; [assumption|]). exact (other_genesis c g g' data _ xs H4 Hn).
Qed.
Print Assumptions c75_other_genesis_unmarked.

(** No genesis hash given: accepted exactly if accepted for some genesis hash, with the same
    result; by the theorems above there is only one such hash. *)
Theorem c75_no_genesis : forall ME (c : chain ME) data t,
  transaction c None data = Ok t <-> exists g, transaction c (Some g) data = Ok t.
Proof.
  intros ME c data t. assert (E : forall g t, transaction c g data = Ok t <->
    exists mk xs, @mark_data ME data = Ok mk /\ extensions_of c g data mk = Ok xs /\
      match call_of c data mk with
      | Ok call => Ok (TransactionParsed (inl call) xs)
      | Err x => Ok (TransactionParsed (inr x) xs)
      | Panic => Panic
      | OutOfFuel => OutOfFuel
      end = Ok (X := signable_err ME) t).
  { intros g t'. rewrite transaction_eq. split.
    - destruct (mark_data data) as [mk| | |]; try discriminate. destruct (extensions_of c g data mk) as [xs| | |] eqn:Hx; try discriminate. intros H. exists mk, xs. auto.
    - intros (mk & xs & -> & -> & H). exact H. }
  rewrite E. split.
  - intros (mk & xs & H1 & H2 & H3). apply some_genesis in H2. destruct H2 as [g H2]. exists g. apply E. eauto.
  - intros (g & H). apply E in H. destruct H as (mk & xs & H1 & H2 & H3). exists mk, xs. split; [exact H1|]. split; [|exact H3].
    apply some_genesis. eauto.
Qed.
Print Assumptions c75_no_genesis.

Theorem c75_no_genesis_unmarked : forall ME (c : chain ME) data call xs,
  transaction_unmarked c None data = Ok (call, xs) <-> exists g, transaction_unmarked c (Some g) data = Ok (call, xs).
Proof.
  intros ME c data call xs. rewrite unmarked_eq. split.
  - intros (id & x & q & H1 & H2 & H3 & H4). apply some_genesis in H4. destruct H4 as [g H4]. exists g. apply unmarked_eq. exists id, x, q. auto.
  - intros (g & H). apply unmarked_eq in H. destruct H as (id & x & q & H1 & H2 & H3 & H4). exists id, x, q.
    repeat (split; [assumption|]). apply some_genesis. eauto.
Qed.
Print Assumptions c75_no_genesis_unmarked.

(** Another runtime version, the types being the same: rejected, whatever the genesis hashes,
    and the error names both versions. *)
Theorem c75_other_version : forall ME (c : chain ME) nv nv' g g' data t, ch_spec c = inl nv ->
  printed_spec_version nv' <> printed_spec_version nv -> transaction c g data = Ok t ->
  transaction (with_spec c nv') g' data = Err (WrongSpecVersion (printed_spec_version nv) (printed_spec_version nv')).
Proof.
  intros ME c nv nv' g g' data t Hs Hn. rewrite !transaction_eq. destruct (mark_data data) as [mk| | |]; try discriminate.
  destruct (extensions_of c g data mk) as [xs| | |] eqn:Hx; try discriminate. intros _.
  rewrite (other_version c g g' data mk xs nv nv' Hs Hx Hn). reflexivity.
Qed.
Print Assumptions c75_other_version.

Theorem c75_other_version_unmarked : forall ME (c : chain ME) nv nv' g g' data call xs, ch_spec c = inl nv ->
  printed_spec_version nv' <> printed_spec_version nv -> transaction_unmarked c g data = Ok (call, xs) ->
  transaction_unmarked (with_spec c nv') g' data = Err (WrongSpecVersion (printed_spec_version nv) (printed_spec_version nv')).
Proof.
  intros ME c nv nv' g g' data call xs Hs Hn H. apply unmarked_eq in H. destruct H as (id & x & q & H1 & H2 & H3 & H4).
  apply unmarked_stops. exists id, x, q, call. repeat (split; [assumption|]). exact (other_version c g g' data _ xs nv nv' Hs H4 Hn).
Qed.
Print Assumptions c75_other_version_unmarked.

(** The name of the runtime is not checked: it has no influence on any answer. *)
Theorem c75_name_not_checked : forall ME (c : chain ME) nv nv' g data,
  printed_spec_version nv = printed_spec_version nv' ->
  transaction (with_spec c nv) g data = transaction (with_spec c nv') g data.
Proof.
  intros ME c nv nv' g data H. rewrite !transaction_eq. destruct (mark_data data) as [mk| | |]; try reflexivity.
  rewrite (extensions_name c g data mk nv nv' H). reflexivity.
Qed.
Print Assumptions c75_name_not_checked.

Theorem c75_name_not_checked_unmarked : forall ME (c : chain ME) nv nv' g data call xs,
  printed_spec_version nv = printed_spec_version nv' ->
  (transaction_unmarked (with_spec c nv) g data = Ok (call, xs) <->
   transaction_unmarked (with_spec c nv') g data = Ok (call, xs)).
Proof.
  intros ME c nv nv' g data call xs H. rewrite !unmarked_eq. cbn [with_spec ch_call ch_types].
  split; intros (id & x & q & H1 & H2 & H3 & H4); exists id, x, q; repeat (split; [assumption|]).
  - rewrite <- (extensions_name c g data _ nv nv' H). exact H4.
  - rewrite (extensions_name c g data _ nv nv' H). exact H4.
Qed.
Print Assumptions c75_name_not_checked_unmarked.

(** A transaction of the sample chain, on the same and on other chains. *)
Definition the_transaction : bytes := prefixed the_call ++ mortal_extensions.
Definition upgraded := with_spec sample_chain (SpecNameVersion "9011" [116; 101; 115; 116]%N).
Definition renamed := with_spec sample_chain (SpecNameVersion "9010" [120]%N).

Example c75_example : exists t, transaction sample_chain (Some genesis) the_transaction = Ok t /\
  transaction sample_chain (Some other_hash) the_transaction = Err (WrongGenesisHash genesis other_hash) /\
  transaction upgraded (Some genesis) the_transaction = Err (WrongSpecVersion "9010" "9011") /\
  transaction renamed (Some genesis) the_transaction = Ok t /\ transaction sample_chain None the_transaction = Ok t.
Proof. eexists. split; [vm_compute; reflexivity|]. repeat split; vm_compute; reflexivity. Qed.

Example c75_example_unmarked : exists xs,
  transaction_unmarked sample_chain (Some genesis) (the_call ++ mortal_extensions) = Ok (call_data, xs) /\
  transaction_unmarked sample_chain (Some other_hash) (the_call ++ mortal_extensions) = Err (WrongGenesisHash genesis other_hash) /\
  transaction_unmarked upgraded None (the_call ++ mortal_extensions) = Err (WrongSpecVersion "9010" "9011").
Proof. eexists. split; [vm_compute; reflexivity|]. repeat split; vm_compute; reflexivity. Qed.
