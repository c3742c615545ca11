(** The first 32 bytes of a storage key are not looked at (C54). *)
From Coq Require Import Lia ZifyBool ZifyNat ZifyN.
From Verif Require Import Base Compact Types Indicators Decode Sign Storage Spec ProofBase ProofTables ProofPeel ProofSpec SpecSource
  ProofSafe ProofSafe2 ProofFuel SpecTrack ProofTrack ProofIso SpecHoles ProofHoles Api ApiStorage.
Local Open Scope list_scope.

Lemma slice_any {E} d p n (e : E) : fst (rd (slice_buffer d) p n e) = fst (rd (slice_buffer d) p n tt).
Proof. cbn [rd slice_buffer]. unfold slice_rd. destruct (_ <? _)%nat; [reflexivity|]. destruct (_ <? _)%N; reflexivity. Qed.

(** Exact agreement from position [lo] on. *)
Definition anyx {X} (_ : X) : Prop := True.

Lemma exact_type {E X} (f : parser_err -> X) types lo (b1 : buffer E) (b2 : buffer unit) id P :
  total_len b1 = total_len b2 -> (forall p n e, (lo <= p)%nat -> fst (rd b1 p n e) = fst (rd b2 p n tt)) ->
  good_buffer b1 -> good_buffer b2 ->
  (forall p n e e' c, fst (rd b1 p n e) = inr (BExternal c) -> exists c', fst (rd b1 p n e') = inr (BExternal c')) ->
  cycle_check (checker_of P) = [] ->
  trk 0 lo False anyx (fun x => x) eq (map_err f (decode_with_type b1 (portable types) (Symbol id) P))
    (map_err f (decode_with_type b2 (portable types) (Symbol id) P)).
Proof.
  intros Hlen Hsame Hg1 Hg2 Hpers Hc. eapply trk_map_err; [|intros; exact I|intros x; rewrite shift_err_0; reflexivity]. apply trk_type; auto.
  - lia.
  - intros p n e1 [] Hp. rewrite Nat.add_0_r, (Hsame p n e1 Hp). destruct (fst (rd b2 p n tt)); [reflexivity|]. right.
    rewrite shift_buf_0. reflexivity.
  - intros i e. cbn [resolve portable]. unfold portable_resolve. destruct (lookup types i) as [t|]; cbn [fst]; [reflexivity|right; auto].
  - intros i e e' c H. cbn [resolve portable] in H. unfold portable_resolve in H. destruct (lookup types i); discriminate.
  - apply good_one, Hg2.
  - intros [].
  - apply good_portable.
Qed.

Section Prefix.
Context {E : Type}.
Variable types : list ty.
Variable blake2_128 twox_64 : bytes -> bytes.
Variable b1 : buffer E.
Variable key : bytes.
Local Notation b2 := (@slice_buffer unit key).
Local Notation r1 := (@portable E types).
Local Notation r2 := (@portable unit types).
Hypothesis Hlen : total_len b1 = List.length key.
Hypothesis Hsame : forall p n e, (PREFIX_LEN <= p)%nat -> fst (rd b1 p n e) = fst (rd b2 p n tt).
Hypothesis Hgood : good_buffer b1.
Hypothesis Hpers : forall p n e e' c, fst (rd b1 p n e) = inr (BExternal c) -> exists c', fst (rd b1 p n e') = inr (BExternal c').

Local Notation same := (fun x => x).
Local Notation tre := (trk 0 PREFIX_LEN False anyx same eq).

Lemma tre_type id P : cycle_check (checker_of P) = [] ->
  tre (map_err ParsingKey (decode_with_type b1 r1 (Symbol id) P)) (map_err ParsingKey (decode_with_type b2 r2 (Symbol id) P)).
Proof. intros Hc. apply exact_type; auto. apply good_slice. Qed.

Lemma tre_slice p n : (PREFIX_LEN <= p)%nat -> tre (map_err ParsingKey (read_slice b1 p n)) (map_err ParsingKey (read_slice b2 p n)).
Proof.
  intros Hp q e1 [] Hq. unfold map_err, read_slice, tracked. pose proof (Hsame p n e1 Hp) as H.
  destruct (rd b1 p n e1) as [o1 e3], (rd b2 p n tt) as [o2 e4]. cbn [fst] in H. subst o1. destruct o2; right; [repeat split; lia|reflexivity].
Qed.

Lemma tre_cut len k id : tre (cut_hash len k id b1) (cut_hash len k id b2).
Proof.
  unfold cut_hash. eapply trk_bind; [apply trk_get|]. intros p p2 [-> Hp]. rewrite Nat.add_0_r.
  eapply trk_bind; [apply tre_slice, Hp|]. intros l ? <-. destruct (_ =? _)%N; [|apply trk_panic].
  eapply trk_bind with (R := eq); [apply trk_set; split; lia|]. intros _ _ _. apply trk_ret. reflexivity.
Qed.

Lemma tre_check len h id : tre (check_hash len h id b1 r1) (check_hash len h id b2 r2).
Proof.
  unfold check_hash. eapply trk_bind; [apply trk_get|]. intros p p2 [-> Hp]. rewrite Nat.add_0_r.
  eapply trk_bind; [apply tre_slice, Hp|]. intros l ? <-. destruct (_ =? _)%N; [|apply trk_panic]. cbv zeta.
  eapply trk_bind with (R := eq); [apply trk_set; split; lia|]. intros _ _ _.
  eapply trk_bind; [apply tre_type; reflexivity|]. intros x ? <-.
  eapply trk_bind; [apply trk_get|]. intros q q2 [-> Hq]. rewrite Nat.add_0_r.
  intros s e1 [] Hs. unfold bind, catch, read_slice, tracked.
  pose proof (Hsame (p + N.to_nat len) (N.of_nat (q - (p + N.to_nat len))) e1 ltac:(lia)) as H.
  destruct (rd b1 _ _ e1) as [o1 e3], (rd b2 _ _ tt) as [o2 e4]. cbn [fst] in H. subst o1. destruct o2 as [y|y].
  - destruct (bytes_eqb l (h y)); right; cbn; auto. 
  - right. exact I.
Qed.

Lemma tre_part h id : tre (key_part_decode blake2_128 twox_64 h id b1 r1) (key_part_decode blake2_128 twox_64 h id b2 r2).
Proof.
  destruct h; cbn [key_part_decode]; try apply tre_cut; try apply tre_check.
  eapply trk_bind; [apply tre_type; reflexivity|]. intros x ? <-. apply trk_ret. reflexivity.
Qed.

Lemma tre_parts hs : forall ids, tre (key_parts blake2_128 twox_64 hs ids b1 r1) (key_parts blake2_128 twox_64 hs ids b2 r2).
Proof.
  induction hs as [|h hs IH]; intros [|id ids]; cbn [key_parts]; try (apply trk_ret; reflexivity).
  eapply trk_bind; [apply tre_part|]. intros x ? <-. eapply trk_bind; [apply IH|]. intros l ? <-. apply trk_ret. reflexivity.
Qed.

Lemma tre_resolve id : tre (map_err (fun x => ParsingKey (PRegistry x)) (resolve_ty r1 id)) (map_err (fun x => ParsingKey (PRegistry x)) (resolve_ty r2 id)).
Proof.
  intros p e1 [] Hp. unfold map_err, resolve_ty. cbn [resolve portable]. unfold portable_resolve. destruct (lookup types id); right; cbn; auto.
Qed.

Lemma tre_body hs id : tre (process_key_body blake2_128 twox_64 hs id b1 r1) (process_key_body blake2_128 twox_64 hs id b2 r2).
Proof.
  unfold process_key_body. eapply trk_bind with (R := eq).
  - assert (Hmany : tre
      (do t <- map_err (fun x => ParsingKey (PRegistry x)) (resolve_ty r1 id);
        match t_def t with
        | TTuple elems =>
            if Nat.eqb (List.length elems) (List.length hs) then
              do content <- key_parts blake2_128 twox_64 hs elems b1 r1;
              ret (KTuple content (info_from_ty t))
            else fail MultipleHashesNumberMismatch
        | _ => fail MultipleHashesNotATuple
        end)
      (do t <- map_err (fun x => ParsingKey (PRegistry x)) (resolve_ty r2 id);
        match t_def t with
        | TTuple elems =>
            if Nat.eqb (List.length elems) (List.length hs) then
              do content <- key_parts blake2_128 twox_64 hs elems b2 r2;
              ret (KTuple content (info_from_ty t))
            else fail MultipleHashesNumberMismatch
        | _ => fail MultipleHashesNotATuple
        end)).
    { eapply trk_bind; [apply tre_resolve|]. intros t ? <-. destruct (t_def t); try (apply trk_fail; reflexivity).
      destruct (Nat.eqb _ _); [|apply trk_fail; reflexivity]. eapply trk_bind; [apply tre_parts|]. intros l ? <-. apply trk_ret. reflexivity. }
    destruct hs as [|h [|h2 hs]]; try exact Hmany.
    eapply trk_bind; [apply tre_part|]. intros x ? <-. apply trk_ret. reflexivity.
  - intros k ? <-. eapply trk_bind; [apply trk_get|]. intros p p2 [-> Hp]. rewrite Nat.add_0_r, Hlen. cbn [total_len slice_buffer].
    destruct (Nat.eqb _ _); [apply trk_ret|apply trk_fail]; reflexivity.
Qed.

Theorem prefix_free value entry e :
  fst (fst (decode_as_storage_entry blake2_128 twox_64 b1 (slice_buffer value) entry r1 0 e)) =
  storage_entry blake2_128 twox_64 types key value entry.
Proof.
  unfold storage_entry, decode_as_storage_entry. cbv zeta. rewrite Hlen. cbn [total_len slice_buffer].
  destruct (Nat.ltb (List.length key) PREFIX_LEN); [reflexivity|].
  assert (Hval : forall id p e1, fst (fst (map_err ParsingValue (decode_all_m (@slice_buffer E value) r1 id) p e1)) =
     fst (fst (map_err ParsingValue (decode_all_m (@slice_buffer unit value) r2 id) p tt))).
  { intros id p e1. unfold decode_all_m, decode_all_body, decode_as_type_at_position, map_err, bind, at_local, set_pos, get_pos.
    assert (H : trk 0 0 False anyx same eq (map_err same (decode_with_type (@slice_buffer E value) r1 (Symbol id) propagated_new))
        (map_err same (decode_with_type (@slice_buffer unit value) r2 (Symbol id) propagated_new))).
    { apply exact_type; [reflexivity|intros q n e0 _; apply slice_any|apply good_slice|apply good_slice| |reflexivity].
      intros q n e0 e' c H. exists c. rewrite <- H. rewrite (slice_any value q n e'), (slice_any value q n e0). reflexivity. }
    specialize (H 0%nat e1 tt (le_n _)). unfold map_err, tracked in H. cbn [Nat.add] in H.
    destruct (decode_with_type (@slice_buffer E value) r1 (Symbol id) propagated_new 0 e1) as [[o1 q1] e3],
      (decode_with_type (@slice_buffer unit value) r2 (Symbol id) propagated_new 0 tt) as [[o2 q2] e4].
    cbn [total_len slice_buffer]. destruct o1, o2; destruct H as [[[] _]|H]; try contradiction; try reflexivity.
    - destruct H as (-> & H & _). rewrite Nat.add_0_r in H. subst q2. destruct (Nat.eqb q1 (List.length value)); reflexivity.
    - rewrite H. reflexivity. }
  assert (Hrest : forall k docs id p e1, fst (fst ((do value <- map_err ParsingValue (decode_all_m (@slice_buffer E value) r1 id); ret (Storage k value docs)) p e1)) =
     fst (fst ((do value <- map_err ParsingValue (decode_all_m (@slice_buffer unit value) r2 id); ret (Storage k value docs)) p tt))).
  { intros k docs id p e1. specialize (Hval id p e1). unfold bind.
    destruct (map_err ParsingValue (decode_all_m (@slice_buffer E value) r1 id) p e1) as [[o1 q1] e3],
      (map_err ParsingValue (decode_all_m (@slice_buffer unit value) r2 id) p tt) as [[o2 q2] e4]. cbn [fst] in Hval. subst o1.
    destruct o2; reflexivity. }
  destruct (en_ty entry) as [vt|hs kt vt].
  - destruct (negb _); [reflexivity|]. apply Hrest.
  - pose proof (tre_body hs kt PREFIX_LEN e tt (le_n _)) as H. rewrite Nat.add_0_r in H. unfold bind at 1 3. unfold process_key_mapped, at_local, bind at 1 3.
    unfold tracked in H. destruct (process_key_body blake2_128 twox_64 hs kt b1 r1 PREFIX_LEN e) as [[o1 q1] e3],
      (process_key_body blake2_128 twox_64 hs kt b2 r2 PREFIX_LEN tt) as [[o2 q2] []].
    destruct o1, o2; destruct H as [[[] _]|H]; try contradiction; try reflexivity.
    + destruct H as (-> & _). apply Hrest.
    + rewrite H. reflexivity.
Qed.
End Prefix.
