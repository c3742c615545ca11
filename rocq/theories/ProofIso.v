(** Instances of the tracking of ProofTrack: shifted in-memory data, external memory. *)
From Coq Require Import Lia ZifyBool ZifyNat ZifyN.
From Verif Require Import Base Compact Types Indicators Decode Spec ProofBase ProofTables ProofPeel ProofSpec SpecSource
  ProofSafe ProofSafe2 ProofFuel SpecTrack ProofTrack Api.
Local Open Scope list_scope.

Lemma good_one {E} (b : buffer E) : good_buffer b ->
  forall p e l, fst (rd b p 1 e) = inl l -> exists x, l = [x].
Proof.
  intros Hb p e l H. destruct (rd b p 1 e) as [x e'] eqn:Hr. cbn [fst] in H. subst x.
  apply Hb in Hr. destruct Hr as [Hl _]. destruct l as [|x [|y l]]; cbn [List.length] in Hl; try lia. eauto.
Qed.

(** *** In-memory data shifted *)

Definition same_reads (k lo : nat) (b1 b2 : buffer unit) : Prop :=
  total_len b2 = (total_len b1 + k)%nat /\
  forall p n, (lo <= p)%nat -> fst (rd b2 (p + k) n tt) =
    match fst (rd b1 p n tt) with inl l => inl l | inr x => inr (shift_buf k x) end.

Lemma trk_shifted types k lo b1 b2 id P : same_reads k lo b1 b2 -> good_buffer b1 -> good_buffer b2 ->
  cycle_check (checker_of P) = [] ->
  trk k lo False pext (shift_err k) eq (decode_with_type b1 (portable types) (Symbol id) P)
    (decode_with_type b2 (portable types) (Symbol id) P).
Proof.
  intros [Hlen Hrd] Hb1 Hb2 Hc. apply trk_type; auto.
  - intros p n [] [] Hp. specialize (Hrd p n Hp). destruct (fst (rd b1 p n tt)); [|right]; exact Hrd.
  - intros i e. cbn [resolve portable]. unfold portable_resolve. destruct (lookup types i); [reflexivity|].
    right. split; reflexivity.
  - intros p n [] [] c H. eauto.
  - intros i [] [] c H. eauto.
  - apply good_one, Hb2.
  - intros [].
  - apply good_portable.
Qed.

(** *** External memory *)

Lemma faulty_good {E} (b : buffer E) data : faulty_copy b data -> good_buffer b.
Proof.
  intros [Hl H] p n e l e' Hr. rewrite Hl. destruct (H p n) as [H1|H1]; specialize (H1 e); rewrite Hr in H1; cbn [fst] in H1.
  - destruct (rd (slice_buffer data) p n tt) as [x e2] eqn:H2. cbn [fst] in H1. subst x. exact (good_slice data _ _ _ _ _ H2).
  - destruct H1 as (c & H1). discriminate.
Qed.

Lemma faulty_good_reg {E} (r : registry E) types : faulty_registry r types -> good_registry r.
Proof.
  intros [Hl H] id e t e' Hr. rewrite Hl. destruct (H id) as [H1|H1]; specialize (H1 e); rewrite Hr in H1; cbn [fst] in H1.
  - destruct (resolve (portable types) id tt) as [x e2] eqn:H2. cbn [fst] in H1. subst x. exact (good_portable types _ _ _ _ H2).
  - destruct H1 as (c & H1). discriminate.
Qed.

Lemma shift_buf_0 x : shift_buf 0 x = x.
Proof. destruct x; cbn; rewrite ?Nat.add_0_r; reflexivity. Qed.
Lemma shift_err_0 x : shift_err 0 x = x.
Proof. destruct x; cbn; rewrite ?Nat.add_0_r, ?shift_buf_0; reflexivity. Qed.

Lemma trk_external {E} (b : buffer E) r types data id P : faulty_copy b data -> faulty_registry r types ->
  straight_signatures types -> cycle_check (checker_of P) = [] ->
  trk 0 0 True pext (shift_err 0) eq (decode_with_type b r (Symbol id) P)
    (decode_with_type (@slice_buffer unit data) (portable types) (Symbol id) P).
Proof.
  intros Hb Hr Hs Hc. pose proof Hb as [Hl Hrd]. pose proof Hr as [Hrl Hres]. apply trk_type; auto.
  - cbn [total_len slice_buffer]. lia.
  - intros p n e1 [] _. rewrite Nat.add_0_r. destruct (Hrd p n) as [H|H]; specialize (H e1).
    + rewrite H. destruct (fst (rd (slice_buffer data) p n tt)); [reflexivity|]. right. rewrite shift_buf_0. reflexivity.
    + destruct H as (c & ->). left. eauto.
  - intros i e. destruct (Hres i) as [H|H]; specialize (H e).
    + rewrite H. cbn [resolve portable]. unfold portable_resolve. destruct (lookup types i); [reflexivity|].
      right. split; reflexivity.
    + destruct H as (c & ->). left. eauto.
  - intros p n e e' c H. destruct (Hrd p n) as [H1|H1]; [|apply H1]. rewrite (H1 e), <- (H1 e') in H. eauto.
  - intros i e e' c H. destruct (Hres i) as [H1|H1]; [|apply H1]. rewrite (H1 e), <- (H1 e') in H. eauto.
  - apply good_one, good_slice.
  - apply (faulty_good b data Hb).
  - apply good_slice.
  - apply (faulty_good_reg r types Hr).
Qed.

(** *** C41, single values *)

Theorem external_or_same {E} (b : buffer E) r types data id pos e o q e' :
  faulty_copy b data -> faulty_registry r types -> straight_signatures types ->
  decode_as_type_at_position b r id pos e = (o, q, e') ->
  (exists x, o = Err x /\ pext x) \/
  match o with
  | Ok x => decode_at types data id pos = (Ok x, q)
  | _ => exists q', decode_at types data id pos = (o, q')
  end.
Proof.
  intros Hb Hr Hs H. pose proof (trk_external b r types data id propagated_new Hb Hr Hs eq_refl pos e tt (Nat.le_0_l _)) as Ht.
  pose proof (decode_at_runs b r (faulty_good _ _ Hb) (faulty_good_reg _ _ Hr) id pos e) as Hrun.
  unfold decode_as_type_at_position in H, Hrun. rewrite Nat.add_0_r in Ht. unfold tracked in Ht. unfold decode_at, decode_as_type_at_position.
  rewrite H in Ht, Hrun. destruct (decode_with_type (slice_buffer data) (portable types) (Symbol id) propagated_new pos tt) as [[o2 q2] e2].
  destruct Ht as [[_ [-> |(x & -> & Hx)]]|Ht].
  - destruct Hrun.
  - left. eauto.
  - right. destruct o, o2; try contradiction.
    + destruct Ht as (<- & -> & _). rewrite Nat.add_0_r. reflexivity.
    + subst. rewrite shift_err_0. eauto.
Qed.

Theorem external_or_same_all {E} (b : buffer E) r types data id e o e' :
  faulty_copy b data -> faulty_registry r types -> straight_signatures types ->
  decode_all_as_type b r id e = (o, e') ->
  (exists x, o = Err x /\ pext x) \/ decode_all types data id = o.
Proof.
  intros Hb Hr Hs. unfold decode_all_as_type, decode_all_body, decode_all, decode_all_as_type, decode_all_body.
  unfold bind, set_pos, get_pos.
  destruct (decode_as_type_at_position b r id 0 e) as [[o1 q1] e1] eqn:H1.
  pose proof (external_or_same b r types data id 0 e o1 q1 e1 Hb Hr Hs H1) as H. unfold decode_at in H.
  destruct (decode_as_type_at_position (slice_buffer data) (portable types) id 0 tt) as [[o2 q2] e2].
  destruct H as [(x & -> & Hx)|H].
  - intros Ho. injection Ho as <- _. left. eauto.
  - destruct o1 as [x|x| |].
    + injection H as -> ->. destruct Hb as [Hl _]. rewrite Hl. cbn [total_len slice_buffer].
      destruct (Nat.eqb q1 (List.length data)); cbn [fst]; unfold ret, fail; intros Ho; injection Ho as <- _; right; reflexivity.
    + destruct H as (q' & H). injection H as -> _. intros Ho. injection Ho as <- _. right. reflexivity.
    + destruct H as (q' & H). injection H as -> _. intros Ho. injection Ho as <- _. right. reflexivity.
    + destruct H as (q' & H). injection H as -> _. intros Ho. injection Ho as <- _. right. reflexivity.
Qed.
