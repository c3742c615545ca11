(** Storage entries and unchecked extrinsics from external memory (C53). *)
From Coq Require Import Lia ZifyBool ZifyNat ZifyN.
From Verif Require Import Base Compact Types Indicators Decode Sign Unchecked Storage Spec ProofBase ProofTables ProofPeel ProofSpec SpecSource
  ProofSafe ProofSafe2 ProofFuel SpecTrack ProofTrack ProofIso ProofExternal ProofCover SpecHoles Api ApiSign ApiStorage.
Local Open Scope list_scope.

Section Holes.
Context {E : Type}.
Variable b : buffer E.
Variable data : bytes.
Variable dead : nat -> bool.
Hypothesis Hb : holes b data dead.

Lemma holes_copy : faulty_copy b data.
Proof.
  destruct Hb as [Hl H]. split; [exact Hl|]. intros p n.
  destruct (Nat.le_gt_cases (p + N.to_nat n) (List.length data)) as [Hn|Hn].
  - destruct (existsb dead (seq p (N.to_nat n))) eqn:Hx.
    + right. intros e. apply existsb_exists in Hx. destruct Hx as (a & Ha & Hd). apply in_seq in Ha.
      exact (proj1 (H p n e) a Ha Hn Hd).
    + left. intros e. apply (proj2 (H p n e)). left. intros a Ha. destruct (dead a) eqn:Hd; [|reflexivity].
      assert (existsb dead (seq p (N.to_nat n)) = true); [|congruence]. apply existsb_exists. exists a.
      split; [apply in_seq; lia|exact Hd].
  - left. intros e. apply (proj2 (H p n e)). right. exact Hn.
Qed.

Lemma holes_read p n e l e' : rd b p n e = (inl l, e') ->
  forall a, (p <= a < p + N.to_nat n)%nat -> dead a = false /\ (a < List.length data)%nat.
Proof.
  intros H a Ha. assert (Hn : (p + N.to_nat n <= List.length data)%nat).
  { pose proof (faulty_good _ _ holes_copy _ _ _ _ _ H). destruct Hb as [Hl _]. rewrite Hl in *. lia. }
  split; [|lia]. destruct (dead a) eqn:Hd; [|reflexivity]. destruct Hb as [_ H1].
  destruct (proj1 (H1 p n e) a Ha Hn Hd) as (c & Hc). rewrite H in Hc. discriminate.
Qed.

Lemma holes_consumed (r : registry E) i P p e x q e' : decode_with_type b r i P p e = (Ok x, q, e') ->
  (p <= q)%nat /\ forall a, (p <= a < q)%nat -> dead a = false /\ (a < List.length data)%nat.
Proof. apply consumed_is_read. exact holes_read. Qed.

Lemma slice_inside d p n : (p + N.to_nat n <= List.length d)%nat -> exists l, fst (rd (@slice_buffer unit d) p n tt) = inl l.
Proof.
  intros H. destruct (readable_slice d p n tt) as (l & e' & Hl); [cbn; lia|]. rewrite Hl. cbn. eauto.
Qed.

Lemma holes_reread (r : registry E) i P p e x q e' e1 : (p <= total_len b)%nat ->
  decode_with_type b r i P p e = (Ok x, q, e') -> exists l e2, rd b p (N.of_nat (q - p)) e1 = (inl l, e2).
Proof.
  intros Hp H. apply holes_consumed in H. destruct H as [Hq H]. destruct Hb as [Hl H1].
  assert (Hn : (p + N.to_nat (N.of_nat (q - p)) <= List.length data)%nat).
  { destruct (Nat.eq_dec p q) as [->|Hne]; [lia|]. destruct (H (q - 1)%nat); lia. }
  assert (Hs : fst (rd b p (N.of_nat (q - p)) e1) = fst (rd (slice_buffer data) p (N.of_nat (q - p)) tt)).
  { apply (proj2 (H1 _ _ _)). left. intros a Ha. apply H. lia. }
  destruct (slice_inside _ _ _ Hn) as (l & Hx). rewrite Hx in Hs. destruct (rd b p _ e1) as [o e2]. cbn in Hs. subst o. eauto.
Qed.

Lemma holes_storage_runs blake2_128 twox_64 (v : buffer E) (r : registry E) entry pos e : good_buffer v -> good_registry r ->
  runs (fun _ _ => True) (decode_as_storage_entry blake2_128 twox_64 b v entry r pos e).
Proof.
  intros Hv Hr. apply storage_runs_gen; auto.
  - exact (faulty_good _ _ holes_copy).
  - intros. eapply holes_reread; eauto.
Qed.
End Holes.

(** *** The recursion bound is not reached, whatever the memory does *)
Section Fuel.
Context {E : Type}.
Variable b : buffer E.
Variable r : registry E.
Hypothesis Hb : good_buffer b.
Hypothesis Hr : good_registry r.

Definition nf {X A} (x : outcome X A * nat * E) : Prop := fst (fst x) <> OutOfFuel.

Lemma nf_bind {X A B} (m : M E X A) (f : A -> M E X B) p e : nf (m p e) -> (forall a q e', nf (f a q e')) -> nf (bind m f p e).
Proof. unfold bind, nf. destruct (m p e) as [[[a|x| |] q] e1]; cbn [fst]; intros H Hf; try discriminate; [apply Hf|destruct H; reflexivity]. Qed.

Lemma nf_map_err {X Y A} (g : X -> Y) (m : M E X A) p e : nf (m p e) -> nf (map_err g m p e).
Proof. unfold map_err, nf. destruct (m p e) as [[[a|x| |] q] e1]; cbn [fst]; intros H; try discriminate; destruct H; reflexivity. Qed.

Lemma nf_runs {X A} Q (x : outcome X A * nat * E) : runs Q x -> nf x.
Proof. unfold nf. destruct x as [[[a|y| |] q] e1]; cbn; intros H; try discriminate. destruct H. Qed.

Lemma nf_ret {X A} (a : A) p e : nf (@ret E X A a p e). Proof. discriminate. Qed.
Lemma nf_fail {X A} (a : X) p e : nf (@fail E X A a p e). Proof. discriminate. Qed.
Lemma nf_panic {X A} p e : nf (@panic E X A p e). Proof. discriminate. Qed.

Lemma nf_slice p0 n p e : nf (read_slice b p0 n p e).
Proof. unfold read_slice, nf. destruct (rd b p0 n e) as [[l|x] e1]; discriminate. Qed.

Lemma nf_type id p e : nf (decode_with_type b r (Symbol id) propagated_new p e).
Proof. eapply nf_runs, decode_type_runs; auto. Qed.

Lemma nf_key_part b2 t6 h id p e : nf (key_part_decode b2 t6 h id b r p e).
Proof.
  assert (Hcut : forall len k, nf (cut_hash len k id b p e)).
  { intros len k. unfold cut_hash. apply nf_bind; [discriminate|]. intros a q e1. apply nf_bind; [apply nf_map_err, nf_slice|].
    intros l q1 e2. destruct (_ =? _)%N; discriminate. }
  assert (Hchk : forall len h, nf (check_hash len h id b r p e)).
  { intros len h0. unfold check_hash. apply nf_bind; [discriminate|]. intros a q e1. apply nf_bind; [apply nf_map_err, nf_slice|].
    intros l q1 e2. destruct (_ =? _)%N; [|discriminate]. apply nf_bind; [discriminate|]. intros _ q2 e3.
    apply nf_bind; [apply nf_map_err, nf_type|]. intros x q3 e4. apply nf_bind; [discriminate|]. intros z q4 e5.
    apply nf_bind; [unfold catch, read_slice, nf; destruct (rd b _ _ e5) as [[c|c] e6]; discriminate|].
    intros [c|c] q5 e6; [|discriminate]. destruct (bytes_eqb _ _); discriminate. }
  destruct h; cbn [key_part_decode]; auto. apply nf_bind; [apply nf_map_err, nf_type|]. discriminate.
Qed.

Lemma nf_key_parts b2 t6 hs : forall ids p e, nf (key_parts b2 t6 hs ids b r p e).
Proof.
  induction hs as [|h hs IH]; intros [|id ids] p e; cbn [key_parts]; try discriminate.
  apply nf_bind; [apply nf_key_part|]. intros x q e1. apply nf_bind; [apply IH|]. discriminate.
Qed.

Lemma nf_resolve id p e : nf (resolve_ty r id p e).
Proof. unfold resolve_ty, nf. destruct (resolve r id e) as [[t|x] e1]; discriminate. Qed.

Lemma nf_local {X A} p0 (m : M E X A) p e : nf (m p0 e) -> nf (at_local p0 m p e).
Proof. unfold at_local, nf. destruct (m p0 e) as [[[a|x| |] q] e1]; cbn [fst]; intros H; try discriminate; destruct H; reflexivity. Qed.

Lemma nf_process b2 t6 hs id p0 p e : nf (process_key_mapped b2 t6 hs id b p0 r p e).
Proof.
  unfold process_key_mapped. apply nf_bind; [apply nf_local|discriminate]. unfold process_key_body. apply nf_bind.
  - assert (Hmany : nf
      ((do t <- map_err (fun x => ParsingKey (PRegistry x)) (resolve_ty r id);
        match t_def t with
        | TTuple elems =>
            if Nat.eqb (List.length elems) (List.length hs) then
              do content <- key_parts b2 t6 hs elems b r;
              ret (KTuple content (info_from_ty t))
            else fail MultipleHashesNumberMismatch
        | _ => fail MultipleHashesNotATuple
        end) p0 e)).
    { apply nf_bind; [apply nf_map_err, nf_resolve|]. intros t q e1. destruct (t_def t); try discriminate.
      destruct (Nat.eqb _ _); [|discriminate]. apply nf_bind; [apply nf_key_parts|]. discriminate. }
    destruct hs as [|h [|h2 hs]]; try exact Hmany. apply nf_bind; [apply nf_key_part|]. discriminate.
  - intros k q e1. apply nf_bind; [discriminate|]. intros p1 q1 e2. destruct (Nat.eqb _ _); discriminate.
Qed.

Lemma nf_storage b2 t6 (v : buffer E) entry p e : good_buffer v -> nf (decode_as_storage_entry b2 t6 b v entry r p e).
Proof.
  intros Hv. unfold decode_as_storage_entry. cbv zeta.
  assert (Hdec : forall k docs id pos e, nf
     ((do value <- map_err ParsingValue (decode_all_m v r id); ret (Storage k value docs)) pos e)).
  { intros k docs id pos' e'. apply nf_bind; [apply nf_map_err|discriminate]. unfold decode_all_m. apply nf_bind; [|discriminate].
    apply nf_local. eapply nf_runs, decode_all_body_runs; auto. }
  destruct (Nat.ltb _ _); [discriminate|]. destruct (en_ty entry).
  - destruct (negb _); [discriminate|]. apply Hdec.
  - apply nf_bind; [apply nf_process|]. intros k q e1. apply Hdec.
Qed.
End Fuel.

(** *** Runs that may panic when memory fails *)
Section Panics.
Context {E : Type}.
Local Notation same := (fun x => x).

Definition trp {X A B} (ext : X -> Prop) (R : A -> B -> Prop) (m1 : M E X A) (m2 : M unit X B) : Prop :=
  forall p e1 e2, fst (fst (m1 p e1)) = Panic \/ tracked 0 0 True ext same R (m1 p e1) (m2 p e2).

Lemma trp_trk {X A B} (ext : X -> Prop) (R : A -> B -> Prop) (m1 : M E X A) (m2 : M unit X B) :
  trk 0 0 True ext same R m1 m2 -> trp ext R m1 m2.
Proof. intros H p e1 e2. right. specialize (H p e1 e2 (Nat.le_0_l _)). rewrite Nat.add_0_r in H. exact H. Qed.

Lemma trp_bind {X A B C D} (ext : X -> Prop) (R : A -> B -> Prop) (Q : C -> D -> Prop) m1 m2 f1 f2 :
  trp ext R m1 m2 -> (forall a b, R a b -> trp ext Q (f1 a) (f2 b)) -> trp ext Q (@bind E X A C m1 f1) (bind m2 f2).
Proof.
  intros Hm Hf p e1 e2. specialize (Hm p e1 e2). unfold bind.
  destruct (m1 p e1) as [[o1 q1] e1'], (m2 p e2) as [[o2 q2] e2']. cbn [fst] in Hm. destruct Hm as [->|[(_ & Hm)|Hm]].
  - left. reflexivity.
  - destruct Hm as [->|(x & -> & Hx)]; right; unfold tracked, bad.
    + destruct o2 as [y| | |]; [destruct (f2 y q2 e2') as [[z ?] ?]|..]; left; auto.
    + destruct o2 as [y| | |]; [destruct (f2 y q2 e2') as [[z ?] ?]|..]; left; split; eauto.
  - destruct o1 as [a|x| |], o2 as [c|y| |]; try contradiction.
    + destruct Hm as (Hr & Hq & _). rewrite Nat.add_0_r in Hq. subst q2. apply Hf, Hr.
    + right. cbn. right. exact Hm.
    + left. reflexivity.
    + right. cbn. right. exact I.
Qed.

Lemma trp_local {X A B} (ext : X -> Prop) (R : A -> B -> Prop) p0 (m1 : M E X A) (m2 : M unit X B) : trp ext R m1 m2 ->
  trp ext (fun x y => R (fst x) (fst y) /\ snd x = snd y) (at_local p0 m1) (at_local p0 m2).
Proof.
  intros H p e1 e2. specialize (H p0 e1 e2). unfold at_local. unfold tracked, bad in *.
  destruct (m1 p0 e1) as [[o1 q1] e1'], (m2 p0 e2) as [[o2 q2] e2']. cbn [fst] in H. destruct H as [->|[(_ & H)|H]].
  - left. reflexivity.
  - right. destruct H as [->|(x & -> & Hx)]; destruct o2; left; split; eauto.
  - destruct o1 as [a|x| |], o2 as [c|y| |]; try contradiction.
    + right. right. destruct H as (H1 & H2 & _). cbn. repeat split; auto; lia.
    + right. right. exact H.
    + left. reflexivity.
    + right. right. exact I.
Qed.

Lemma trp_map_err {X Y A B} (ext : X -> Prop) (ext' : Y -> Prop) (R : A -> B -> Prop) (f : X -> Y) m1 m2 :
  trp ext R m1 m2 -> (forall x, ext x -> ext' (f x)) -> trp ext' R (@map_err E X Y A f m1) (map_err f m2).
Proof.
  intros H He p e1 e2. specialize (H p e1 e2). unfold map_err, tracked, bad in *.
  destruct (m1 p e1) as [[o1 q1] e1'], (m2 p e2) as [[o2 q2] e2']. cbn [fst] in H. destruct H as [->|[(_ & H)|H]].
  - left. reflexivity.
  - right. destruct H as [->|(x & -> & Hx)]; destruct o2; left; split; eauto; right; exists (f x); auto.
  - destruct o1 as [a|x| |], o2 as [c|y| |]; try contradiction; [right; right; exact H| |left; reflexivity|right; right; exact I].
    right. right. subst y. reflexivity.
Qed.
End Panics.

Section Entry.
Context {E : Type}.
Variable types : list ty.
Variable r : registry E.
Hypothesis Hr : faulty_registry r types.
Hypothesis Hs : straight_signatures types.
Variable blake2_128 twox_64 : bytes -> bytes.
Local Notation same := (fun x => x).

Definition sfault (x : storage_err) : Prop := exists y, (x = ParsingKey y \/ x = ParsingValue y) /\ pext y.

Lemma trp_same {A} (m1 : M E parser_err A) (m2 : M unit parser_err A) :
  trk 0 0 True pext (shift_err 0) eq m1 m2 -> trp pext eq m1 m2.
Proof.
  intros H p e1 e2. specialize (H p e1 e2 (Nat.le_0_l _)). rewrite Nat.add_0_r in H. right. unfold tracked in *.
  destruct (m1 p e1) as [[o1 q1] e1'], (m2 p e2) as [[o2 q2] e2'].
  destruct H as [H|H]; [left; exact H|right]. destruct o1, o2; auto. rewrite shift_err_0 in H. exact H.
Qed.

Section One.
Variable b1 : buffer E.
Variable b2 : buffer unit.
Hypothesis Hb : faulty_of b1 b2.
Hypothesis Hg : good_buffer b2.

Lemma trp_type id P : cycle_check (checker_of P) = [] ->
  trp pext eq (decode_with_type b1 r (Symbol id) P) (decode_with_type b2 (portable types) (Symbol id) P).
Proof.
  intros. apply trp_same. set (c := Chain unit types (inr tt) (inr tt) (inr tt) (inr tt) (inr tt)).
  exact (trk_ext_type c r Hr Hs b1 b2 id P Hb Hg H).
Qed.

Lemma faulty_rd p n e : fst (rd b1 p n e) = fst (rd b2 p n tt) \/ exists c, fst (rd b1 p n e) = inr (BExternal c).
Proof. destruct Hb as [_ H]. destruct (H p n) as [H1|H1]; [left|right]; apply H1. Qed.

Lemma trp_slice p0 n : trp pext eq (read_slice b1 p0 n) (read_slice b2 p0 n).
Proof.
  intros p e1 []. right. unfold read_slice, tracked, bad. destruct (faulty_rd p0 n e1) as [H|(c & H)];
    destruct (rd b1 p0 n e1) as [o1 e1'], (rd b2 p0 n tt) as [o2 e2']; cbn [fst] in H; subst o1.
  - destruct o2; right; auto. repeat split; lia.
  - destruct o2; left; split; auto; right; exists (PBuffer (BExternal c)); (split; [reflexivity|left; eauto]).
Qed.

Lemma trp_get : trp (X := storage_err) (E := E) sfault eq get_pos get_pos.
Proof. intros p e1 e2. right. right. cbn. repeat split; lia. Qed.

Lemma trp_set q : trp (X := storage_err) (E := E) sfault eq (set_pos q) (set_pos q).
Proof. intros p e1 e2. right. right. cbn. repeat split; lia. Qed.

Lemma trp_ret {X A} (ext : X -> Prop) (a : A) : trp (E := E) ext eq (ret a) (ret a).
Proof. intros p e1 e2. right. right. cbn. repeat split; lia. Qed.

Lemma trp_fail {X A} (ext : X -> Prop) (R : A -> A -> Prop) (x : X) : trp (E := E) ext R (fail x) (fail x).
Proof. intros p e1 e2. right. right. reflexivity. Qed.

Lemma trp_panic {X A} (ext : X -> Prop) (R : A -> A -> Prop) : trp (E := E) (X := X) ext R panic panic.
Proof. intros p e1 e2. left. reflexivity. Qed.

Lemma key_fault x : pext x -> sfault (ParsingKey x). Proof. exists x. auto. Qed.
Lemma value_fault x : pext x -> sfault (ParsingValue x). Proof. exists x. auto. Qed.

Lemma trp_cut_hash len k id : trp sfault eq (cut_hash len k id b1) (cut_hash len k id b2).
Proof.
  unfold cut_hash. eapply trp_bind; [apply trp_get|]. intros p ? <-.
  eapply trp_bind; [apply trp_map_err with (ext := pext); [apply trp_slice|exact key_fault]|]. intros l ? <-.
  destruct (_ =? _)%N; [|apply trp_panic]. eapply trp_bind; [apply trp_set|]. intros _ _ _. apply trp_ret.
Qed.

Lemma trp_check_hash len h id : trp sfault eq (check_hash len h id b1 r) (check_hash len h id b2 (portable types)).
Proof.
  unfold check_hash. eapply trp_bind; [apply trp_get|]. intros p ? <-.
  eapply trp_bind; [apply trp_map_err with (ext := pext); [apply trp_slice|exact key_fault]|]. intros l ? <-.
  destruct (_ =? _)%N; [|apply trp_panic]. cbv zeta. eapply trp_bind; [apply trp_set|]. intros _ _ _.
  eapply trp_bind; [apply trp_map_err with (ext := pext); [apply trp_type; reflexivity|exact key_fault]|]. intros x ? <-.
  eapply trp_bind; [apply trp_get|]. intros q ? <-.
  intros p1 e1 []. unfold bind, catch, read_slice.
  destruct (faulty_rd (p + N.to_nat len) (N.of_nat (q - (p + N.to_nat len))) e1) as [H|(c & H)];
    destruct (rd b1 _ _ e1) as [o1 e1'], (rd b2 _ _ tt) as [o2 e2']; cbn [fst] in H; subst o1.
  - destruct o2 as [y|y]; [|left; reflexivity]. destruct (bytes_eqb l (h y)); right; right; cbn; auto. repeat split; lia.
  - left. reflexivity.
Qed.

Lemma trp_key_part h id : trp sfault eq (key_part_decode blake2_128 twox_64 h id b1 r)
  (key_part_decode blake2_128 twox_64 h id b2 (portable types)).
Proof.
  destruct h; cbn [key_part_decode]; try apply trp_cut_hash; try apply trp_check_hash.
  eapply trp_bind; [apply trp_map_err with (ext := pext); [apply trp_type; reflexivity|exact key_fault]|]. intros x ? <-. apply trp_ret.
Qed.

Lemma trp_key_parts hs : forall ids, trp sfault eq (key_parts blake2_128 twox_64 hs ids b1 r)
  (key_parts blake2_128 twox_64 hs ids b2 (portable types)).
Proof.
  induction hs as [|h hs IH]; intros [|id ids]; cbn [key_parts]; try apply trp_ret.
  eapply trp_bind; [apply trp_key_part|]. intros x ? <-. eapply trp_bind; [apply IH|]. intros l ? <-. apply trp_ret.
Qed.

Lemma trp_resolve id : trp (E := E) sfault eq (map_err (fun x => ParsingKey (PRegistry x)) (resolve_ty r id))
  (map_err (fun x => ParsingKey (PRegistry x)) (resolve_ty (portable types) id)).
Proof.
  destruct Hr as [_ H]. intros p e1 []. right. unfold map_err, resolve_ty, tracked, bad.
  destruct (H id) as [H1|H1]; specialize (H1 e1); destruct (resolve r id e1) as [o1 e1'].
  - destruct (resolve (portable types) id tt) as [o2 e2']. cbn [fst] in H1. subst o1.
    destruct o2; right; auto. repeat split; lia.
  - destruct H1 as (c & H1). cbn [fst] in H1. subst o1. destruct (resolve (portable types) id tt) as [[o2|o2] e2']; left; (split; [exact I|]);
      right; eexists; (split; [reflexivity|]); apply key_fault; right; eauto.
Qed.

Lemma trp_process hs id p0 : trp sfault eq (process_key_mapped blake2_128 twox_64 hs id b1 p0 r)
  (process_key_mapped blake2_128 twox_64 hs id b2 p0 (portable types)).
Proof.
  unfold process_key_mapped. eapply trp_bind with (R := fun x y => fst x = fst y /\ snd x = snd y);
    [apply trp_local|intros x y [-> _]; apply trp_ret].
  unfold process_key_body. eapply trp_bind with (R := eq).
  - assert (Hmany : trp sfault eq
      (do t <- map_err (fun x => ParsingKey (PRegistry x)) (resolve_ty r id);
        match t_def t with
        | TTuple elems =>
            if Nat.eqb (List.length elems) (List.length hs) then
              do content <- key_parts blake2_128 twox_64 hs elems b1 r;
              ret (KTuple content (info_from_ty t))
            else fail MultipleHashesNumberMismatch
        | _ => fail MultipleHashesNotATuple
        end)
      (do t <- map_err (fun x => ParsingKey (PRegistry x)) (resolve_ty (portable types) id);
        match t_def t with
        | TTuple elems =>
            if Nat.eqb (List.length elems) (List.length hs) then
              do content <- key_parts blake2_128 twox_64 hs elems b2 (portable types);
              ret (KTuple content (info_from_ty t))
            else fail MultipleHashesNumberMismatch
        | _ => fail MultipleHashesNotATuple
        end)).
    { eapply trp_bind; [apply trp_resolve|]. intros t ? <-. destruct (t_def t); try apply trp_fail.
      destruct (Nat.eqb _ _); [|apply trp_fail]. eapply trp_bind; [apply trp_key_parts|]. intros l ? <-. apply trp_ret. }
    destruct hs as [|h [|h2 hs]]; try exact Hmany.
    eapply trp_bind; [apply trp_key_part|]. intros x ? <-. apply trp_ret.
  - intros k ? <-. eapply trp_bind; [apply trp_get|]. intros p ? <-. destruct Hb as [Hl _]. rewrite Hl.
    destruct (Nat.eqb _ _); [apply trp_ret|apply trp_fail].
Qed.

Lemma trp_all id : trp pext eq (decode_all_m b1 r id) (decode_all_m b2 (portable types) id).
Proof.
  unfold decode_all_m. eapply trp_bind with (R := fun x y => fst x = fst y /\ snd x = snd y);
    [apply trp_local|intros x y [-> _]; apply trp_ret].
  unfold decode_all_body. 
  eapply trp_bind with (R := eq); [intros p e1 e2; right; right; cbn; repeat split; lia|]. intros _ _ _.
  eapply trp_bind with (R := eq); [apply trp_type; reflexivity|]. intros x ? <-.
  eapply trp_bind with (R := eq); [intros p e1 e2; right; right; cbn; repeat split; lia|]. intros p ? <-.
  destruct Hb as [Hl _]. rewrite Hl. destruct (Nat.eqb _ _); [apply trp_ret|apply trp_fail].
Qed.
End One.

Lemma trp_entry (k1 v1 : buffer E) k2 v2 entry : faulty_of k1 k2 -> good_buffer k2 -> faulty_of v1 v2 -> good_buffer v2 ->
  trp sfault eq (decode_as_storage_entry blake2_128 twox_64 k1 v1 entry r)
    (decode_as_storage_entry blake2_128 twox_64 k2 v2 entry (portable types)).
Proof.
  intros Hk Hgk Hv Hgv. unfold decode_as_storage_entry. cbv zeta. pose proof Hk as [Hl _]. rewrite Hl.
  assert (Hdec : forall k docs id, trp sfault eq
     (do value <- map_err ParsingValue (decode_all_m v1 r id); ret (Storage k value docs))
     (do value <- map_err ParsingValue (decode_all_m v2 (portable types) id); ret (Storage k value docs))).
  { intros k docs id. eapply trp_bind; [apply trp_map_err with (ext := pext); [apply trp_all; auto|exact value_fault]|].
    intros x ? <-. apply trp_ret. }
  destruct (Nat.ltb _ _); [apply trp_fail|]. destruct (en_ty entry).
  - destruct (negb _); [apply trp_fail|]. apply Hdec.
  - eapply trp_bind; [apply trp_process; auto|]. intros k ? <-. apply Hdec.
Qed.

(** Any persistent faults. *)
Theorem external_storage (k1 v1 : buffer E) key value entry e o q e' : faulty_copy k1 key -> faulty_copy v1 value ->
  decode_as_storage_entry blake2_128 twox_64 k1 v1 entry r 0 e = (o, q, e') ->
  o = Panic \/ (exists x, o = Err x /\ sfault x) \/ o = storage_entry blake2_128 twox_64 types key value entry.
Proof.
  intros Hk Hv H. pose proof (trp_entry k1 v1 (slice_buffer key) (slice_buffer value) entry Hk (good_slice key) Hv (good_slice value) 0 e tt) as T.
  unfold storage_entry. rewrite H in T. unfold tracked, bad in T. 
  destruct (decode_as_storage_entry blake2_128 twox_64 (slice_buffer key) (slice_buffer value) entry (portable types) 0 tt) as [[o2 q2] e2].
  pose proof (nf_storage k1 r (faulty_good _ _ Hk) (faulty_good_reg _ _ Hr) blake2_128 twox_64 v1 entry 0 e (faulty_good _ _ Hv)) as N.
  rewrite H in N. unfold nf in N. cbn [fst] in *. destruct T as [->|[(_ & [->|T])|T]]; auto; [destruct N; reflexivity|].
  right. right. destruct o, o2; try contradiction; first [destruct T as [-> _]; reflexivity|rewrite T; reflexivity|reflexivity|destruct N; reflexivity].
Qed.
End Entry.

Section Unchecked.
Context {E ME : Type}.
Variable c : chain ME.
Local Notation types := (ch_types c).
Variable r : registry E.
Hypothesis Hr : faulty_registry r types.
Hypothesis Hs : straight_signatures types.

Definition ufault (x : unchecked_err ME) : Prop := x = FormatNoCompact \/ exists y, x = UParsing y /\ pext y.
Local Notation same := (fun x => x).

Lemma trk_lift_umeta A (x : A + ME) : trk 0 0 True ufault same eq
    (map_err UMetaStructure (@lift E ME A x)) (map_err UMetaStructure (@lift unit ME A x)).
Proof. destruct x as [a|x]; intros p e1 e2 Hp; right; cbn; auto. Qed.

Lemma trk_same_uerr {A} (m1 : M E parser_err A) (m2 : M unit parser_err A) :
  trk 0 0 True pext (shift_err 0) eq m1 m2 -> trk 0 0 True ufault same eq (map_err UParsing m1) (map_err UParsing m2).
Proof.
  intros H. eapply trk_map_err; [exact H| |].
  - intros x Hx. right. eauto.
  - intros x. rewrite shift_err_0. reflexivity.
Qed.

Lemma trk_unchecked (b1 : buffer E) b2 : faulty_of b1 b2 -> good_buffer b2 ->
  trk 0 0 True ufault same eq (decode_as_unchecked_extrinsic b1 (meta c r)) (decode_as_unchecked_extrinsic b2 (chain_metadata c)).
Proof.
  intros Hb Hg. pose proof Hb as [Hlen Hf].
  assert (Hrd : forall p n e1 e2, (0 <= p)%nat ->
    match fst (rd b1 p n e1) with
    | inl l => fst (rd b2 (p + 0) n e2) = inl l
    | inr x => (True /\ exists c, x = BExternal c) \/ fst (rd b2 (p + 0) n e2) = inr (shift_buf 0 x)
    end).
  { intros p n e1 [] _. rewrite Nat.add_0_r. destruct (Hf p n) as [H1|H1]; specialize (H1 e1).
    - rewrite H1. destruct (fst (rd b2 p n tt)); [reflexivity|]. right. rewrite shift_buf_0. reflexivity.
    - destruct H1 as (y & ->). left. eauto. }
  assert (Hl : total_len b2 = (total_len b1 + 0)%nat) by lia.
  unfold decode_as_unchecked_extrinsic. eapply trk_bind; [apply trk_local|intros x ? <-; apply trk_ret; reflexivity].
  unfold decode_unchecked_body. cbn [meta chain_metadata m_types m_extrinsic_type_params m_extrinsic_version].
  eapply trk_bind; [apply trk_lift_umeta|]. intros params ? <-. cbv zeta.
  eapply trk_bind with (R := eq).
  { eapply trk_map_err with (ext := pext) (g := shift_err 0).
    - exact (trk_get_compact b1 b2 r types 0 0 True Hl (proj1 Hr) Hrd U32).
    - intros x _. left. reflexivity.
    - reflexivity. }
  intros n ? <-. eapply trk_bind; [apply trk_get|]. intros s s2 [-> Hle]. rewrite Nat.add_0_r. rewrite <- Hlen.
  destruct (_ <? _)%N; [apply trk_fail; reflexivity|]. destruct (_ <? _)%N; [apply trk_fail; reflexivity|].
  eapply trk_bind with (R := eq).
  { apply trk_same_uerr. apply (trk_byte b1 b2 0 0 True Hrd). split; lia. }
  intros v ? <-. eapply trk_bind with (R := eq); [apply trk_set; split; lia|]. intros _ _ _.
  eapply trk_bind; [apply trk_lift_umeta|]. intros ver ? <-.
  assert (Hd : forall id, trk 0 0 True ufault same eq (map_err UParsing (decode_as_type_at_position b1 r id))
     (map_err UParsing (decode_as_type_at_position b2 (portable types) id))).
  { intros id. apply trk_same_uerr. exact (trk_ext_type c r Hr Hs b1 b2 id propagated_new Hb Hg eq_refl). }
  destruct (negb _); [apply trk_fail; reflexivity|]. destruct (_ =? 0)%N.
  - eapply trk_bind; [apply Hd|]. intros x ? <-. destruct (x_data x); try (apply trk_fail; reflexivity). apply trk_ret; reflexivity.
  - eapply trk_bind; [apply Hd|]. intros x1 ? <-. eapply trk_bind; [apply Hd|]. intros x2 ? <-.
    eapply trk_bind; [apply Hd|]. intros x3 ? <-. eapply trk_bind; [apply Hd|]. intros x ? <-.
    destruct (x_data x); try (apply trk_fail; reflexivity). apply trk_ret; reflexivity.
Qed.

Theorem external_unchecked (b : buffer E) data e o q e' : faulty_copy b data ->
  decode_as_unchecked_extrinsic b (meta c r) 0 e = (o, q, e') ->
  (exists x, o = Err x /\ ufault x) \/ o = result (decode_as_unchecked_extrinsic (slice_buffer data) (chain_metadata c)).
Proof.
  intros Hb Hp. pose proof (good_slice (E := unit) data) as Hg.
  pose proof (trk_unchecked b (slice_buffer data) Hb Hg 0%nat e tt (le_n _)) as Ht. cbn [Nat.add] in Ht.
  pose proof (unchecked_runs b (meta c r) (faulty_good _ _ Hb) (faulty_good_reg r types Hr) 0 e) as R1.
  unfold result, tracked, bad in *. rewrite Hp in R1, Ht.
  destruct (decode_as_unchecked_extrinsic (slice_buffer data) (chain_metadata c) 0 tt) as [[o2 q2] e2]. cbn [fst].
  destruct Ht as [(_ & [-> |(x & -> & Hx)])|Ht].
  - destruct R1.
  - left. eauto.
  - right. destruct o, o2; try contradiction; try destruct R1; [destruct Ht as [-> _]|rewrite Ht]; reflexivity.
Qed.
End Unchecked.
