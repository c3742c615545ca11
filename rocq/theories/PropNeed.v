(** C54: bytes that are not consumed are not needed, and the prefix of a storage key is not
    looked at.  Only statements; proofs in ProofNeed.v and ProofPrefix.v. *)
From Coq Require Import Lia ZifyBool ZifyNat ZifyN.
From Verif Require Import Base Compact Types Indicators Decode Sign Storage Spec SpecSource SpecTrack SpecHoles
  Api ApiStorage ProofBase ProofSafe ProofSafe2 ProofIso ProofHoles ProofNeed ProofPrefix Sample SampleChain PropTrack PropStorage PropHoles.
Local Open Scope string_scope.
Local Open Scope list_scope.

Lemma holes_in {E} (b : buffer E) data dead p n e1 e2 l e2' : holes b data dead ->
  rd (@slice_buffer unit data) p n e2 = (inl l, e2') -> (forall i, (p <= i < p + N.to_nat n)%nat -> dead i = false) ->
  exists e1', rd b p n e1 = (inl l, e1').
Proof.
  intros [Hl H] Hr Hd. destruct e2. pose proof (proj2 (H p n e1) (or_introl Hd)) as Hx. rewrite Hr in Hx.
  destruct (rd b p n e1) as [o e3]. cbn in Hx. subst o. eauto.
Qed.

Lemma holes_out {E} (b : buffer E) data dead p n e1 e2 l e1' : holes b data dead ->
  rd b p n e1 = (inl l, e1') -> exists e2', rd (@slice_buffer unit data) p n e2 = (inl l, e2').
Proof.
  intros H Hr. destruct e2. destruct (holes_copy b data dead H) as [_ Hc]. destruct (Hc p n) as [Hx|Hx]; specialize (Hx e1); rewrite Hr in Hx; cbn [fst] in Hx.
  - destruct (rd (slice_buffer data) p n tt) as [o e3]. cbn in Hx. subst o. eauto.
  - destruct Hx as (c & Hx). discriminate.
Qed.

(** C54: if decoding in memory succeeds using the bytes from [pos] to [q], it also succeeds,
    with the same result, from any memory in which these bytes can be read. *)
Theorem c54_consumed_suffice : forall E (b : buffer E) data dead types id pos x q,
  holes b data dead -> decode_at types data id pos = (Ok x, q) ->
  (forall a, (pos <= a < q)%nat -> dead a = false) ->
  forall e, exists e', decode_as_type_at_position b (portable types) id pos e = (Ok x, q, e').
Proof.
  intros E b data dead types id pos x q Hb H Hg e. unfold decode_at in H.
  destruct (decode_as_type_at_position (slice_buffer data) (portable types) id pos tt) as [[o s] e2] eqn:Hr. injection H as -> ->.
  apply (only_consumed_needed b (@slice_buffer unit data) (portable types) (@portable unit types) (fun a => dead a = false)) with (e2 := tt) (e2' := e2); auto.
  - apply Hb.
  - intros. eapply holes_in; eauto.
  - intros. eapply holes_out; eauto.
  - intros i e1 e3. cbn [resolve portable]. unfold portable_resolve. destruct (lookup types i); reflexivity.
Qed.
Print Assumptions c54_consumed_suffice.

(** Exactly then (for registries as in C41). *)
Theorem c54_exactly_consumed : forall E (b : buffer E) data dead types id pos x q e,
  holes b data dead -> straight_signatures types ->
  (exists e', decode_as_type_at_position b (portable types) id pos e = (Ok x, q, e')) <->
  decode_at types data id pos = (Ok x, q) /\ forall a, (pos <= a < q)%nat -> dead a = false.
Proof.
  intros E b data dead types id pos x q e Hb Hs. split.
  - intros (e' & H). split.
    + assert (Hr : faulty_registry (@portable E types) types).
      { split; [reflexivity|]. intros i. left. intros e0. cbn [resolve portable]. unfold portable_resolve. destruct (lookup types i); reflexivity. }
      destruct (external_or_same b (portable types) types data id pos e _ _ _ (holes_copy b data dead Hb) Hr Hs H) as [(y & Hy & _)|Hx]; [discriminate|exact Hx].
    + intros a Ha. unfold decode_as_type_at_position in H. apply (proj2 (holes_consumed b data dead Hb _ _ _ _ _ _ _ _ H) a Ha).
  - intros [H Hd]. eapply c54_consumed_suffice; eauto.
Qed.
Print Assumptions c54_exactly_consumed.

(** The first 32 bytes of a storage key, which name the pallet and the entry, have no
    influence: any other bytes do. *)
Theorem c54_prefix_not_checked : forall (blake2_128 twox_64 : bytes -> bytes) types prefix1 prefix2 key value entry,
  List.length prefix1 = 32%nat -> List.length prefix2 = 32%nat ->
  storage_entry blake2_128 twox_64 types (prefix1 ++ key) value entry =
  storage_entry blake2_128 twox_64 types (prefix2 ++ key) value entry.
Proof.
  intros b2 t6 types p1 p2 key value entry H1 H2.
  rewrite <- (prefix_free types b2 t6 (@slice_buffer unit (p1 ++ key)) (p2 ++ key)) with (e := tt); [reflexivity|..].
  - cbn [total_len slice_buffer]. rewrite !app_length. lia.
  - intros p n [] Hp. cbn [rd slice_buffer]. unfold slice_rd. rewrite !app_length, H1, H2.
    destruct (_ <? _)%nat; [reflexivity|]. destruct (_ <? _)%N; [reflexivity|]. cbn [fst]. f_equal. unfold slice. f_equal.
    change PREFIX_LEN with 32%nat in Hp.
    rewrite !skipn_app, H1, H2, (skipn_all2 p1), (skipn_all2 p2) by lia. reflexivity.
  - apply good_slice.
  - intros p n [] [] c Hc. exists c. exact Hc.
Qed.
Print Assumptions c54_prefix_not_checked.

(** They need not even be readable. *)
Theorem c54_prefix_unread : forall E (blake2_128 twox_64 : bytes -> bytes) types (k : buffer E) key dead value entry e,
  holes k key dead -> (forall a, dead a = true -> (a < 32)%nat) ->
  fst (fst (decode_as_storage_entry blake2_128 twox_64 k (slice_buffer value) entry (portable types) 0 e)) =
  storage_entry blake2_128 twox_64 types key value entry.
Proof.
  intros E b2 t6 types k key dead value entry e Hk Hd. apply prefix_free.
  - apply Hk.
  - intros p n e1 Hp. change PREFIX_LEN with 32%nat in Hp. apply (proj2 (proj2 Hk p n e1)). left. intros a Ha.
    destruct (dead a) eqn:Hx; [|reflexivity]. specialize (Hd a Hx). lia.
  - exact (faulty_good _ _ (holes_copy k key dead Hk)).
  - intros p n e1 e' c Hc. destruct (holes_copy k key dead Hk) as [_ H]. destruct (H p n) as [H1|H1]; [|apply H1].
    exists c. rewrite (H1 e'), <- (H1 e1). exact Hc.
Qed.
Print Assumptions c54_prefix_unread.

(** Concrete cases. *)
Example c54_example :
  (* 40 bytes, a u32 read from position 3 with all other addresses dead *)
  fst (fst (decode_as_type_at_position (Buffer nat 40 (fun p n e =>
     (if (Nat.leb 3 p && (p + N.to_nat n <=? 7)%nat)%bool then inl (repeat 1%N (N.to_nat n)) else inr (BExternal 7), S e)))
     (portable storage_types) 0 3 0%nat)) = Ok (u32v 16843009) /\
  decode_at storage_types (repeat 1%N 40) 0 3 = (Ok (u32v 16843009), 7%nat).
Proof. vm_compute. split; reflexivity. Qed.

Example c54_storage_example :
  stored tuple_key [9; 0; 0; 0]%N tuple_entry = stored (repeat 99%N 32 ++ skipn 32 tuple_key) [9; 0; 0; 0]%N tuple_entry /\
  (exists s, stored tuple_key [9; 0; 0; 0]%N tuple_entry = Ok s) /\
  holes (hole_memory tuple_key 3) tuple_key (Nat.eqb 3).
Proof. split; [vm_compute; reflexivity|]. split; [eexists; apply c27_example|apply hole_memory_holes]. Qed.
