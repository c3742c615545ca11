(** Every byte that is consumed has been read (C53). *)
From Coq Require Import Lia ZifyBool ZifyNat ZifyN.
From Verif Require Import Base Compact Types Indicators Decode.
Local Open Scope list_scope.

Section Cover.
Context {E : Type}.
Variable b : buffer E.
Variable r : registry E.
Variable R : nat -> Prop.
Hypothesis Hrd : forall p n e l e', rd b p n e = (inl l, e') -> forall a, (p <= a < p + N.to_nat n)%nat -> R a.

(** On success: the position moves forward, over addresses in [R] only. *)
Definition cov {X A} (Q : A -> nat -> Prop) (p : nat) (x : outcome X A * nat * E) : Prop :=
  let '(o, q, _) := x in
  match o with Ok a => (p <= q)%nat /\ (forall i, (p <= i < q)%nat -> R i) /\ Q a q | _ => True end.

Definition any {A} (_ : A) (_ : nat) : Prop := True.

Lemma cov_bind {X A B} (Q : A -> nat -> Prop) (Q2 : B -> nat -> Prop) (m : M E X A) f p e :
  cov Q p (m p e) -> (forall a q e', (p <= q)%nat -> Q a q -> cov Q2 q (f a q e')) -> cov Q2 p (bind m f p e).
Proof.
  unfold bind, cov. destruct (m p e) as [[[a|x| |] q] e1]; try tauto. intros (H1 & H2 & H3) H.
  specialize (H a q e1 H1 H3). destruct (f a q e1) as [[[c|x| |] q2] e2]; try tauto.
  destruct H as (H4 & H5 & H6). split; [lia|]. split; [|exact H6]. intros i Hi.
  destruct (Nat.lt_ge_cases i q); [apply H2; lia|apply H5; lia].
Qed.

(** Reads at the current position followed by a jump. *)
Definition still {X A} (Q : A -> Prop) (p : nat) (x : outcome X A * nat * E) : Prop :=
  let '(o, q, _) := x in match o with Ok a => q = p /\ Q a | _ => True end.

Lemma still_bind {X A B} (Q : A -> Prop) (Q2 : B -> nat -> Prop) (m : M E X A) f p e :
  still Q p (m p e) -> (forall a e', Q a -> cov Q2 p (f a p e')) -> cov Q2 p (bind m f p e).
Proof.
  unfold bind, still. destruct (m p e) as [[[a|x| |] q] e1]; try (intros; exact I). intros [-> H1] H. exact (H a e1 H1).
Qed.

Lemma still_bind2 {X A B} (Q : A -> Prop) (Q2 : B -> Prop) (m : M E X A) f p e :
  still Q p (m p e) -> (forall a e', Q a -> still Q2 p (f a p e')) -> still Q2 p (bind m f p e).
Proof.
  unfold bind, still. destruct (m p e) as [[[a|x| |] q] e1]; try (intros; exact I). intros [-> H1] H. exact (H a e1 H1).
Qed.

Lemma cov_still {X A} (Q : A -> Prop) p (x : outcome X A * nat * E) : still Q p x -> cov any p x.
Proof. unfold still, cov. destruct x as [[[a|y| |] q] e]; auto. intros [-> H]. split; [lia|]. split; [intros; lia|exact I]. Qed.

Lemma cov_any {X A} (Q : A -> nat -> Prop) p (x : outcome X A * nat * E) : cov Q p x -> cov any p x.
Proof. unfold cov. destruct x as [[[a|y| |] q] e]; auto. intros (H1 & H2 & _). split; [exact H1|split; [exact H2|exact I]]. Qed.

Lemma cov_ret {X A} (a : A) p e : cov any p (@ret E X A a p e).
Proof. cbn. split; [lia|]. split; [intros; lia|exact I]. Qed.

Lemma cov_map_err {X Y A} (Q : A -> nat -> Prop) (g : X -> Y) (m : M E X A) p e : cov Q p (m p e) -> cov Q p (map_err g m p e).
Proof. unfold cov, map_err. destruct (m p e) as [[[a|y| |] q] e']; auto. Qed.

Lemma still_map_err {X Y A} (Q : A -> Prop) (g : X -> Y) (m : M E X A) p e : still Q p (m p e) -> still Q p (map_err g m p e).
Proof. unfold still, map_err. destruct (m p e) as [[[a|y| |] q] e']; auto. Qed.

Lemma cov_lift {X A} (x : A + X) p e : cov any p (@lift E X A x p e).
Proof. destruct x; [apply cov_ret|exact I]. Qed.

Lemma still_lift {X A} (x : A + X) p e : still (fun _ => True) p (@lift E X A x p e).
Proof. destruct x; cbn; auto. Qed.

Definition covers (p q : nat) : Prop := (p <= q)%nat /\ forall i, (p <= i < q)%nat -> R i.

Lemma cov_set {X A} (Q : A -> nat -> Prop) p q e (m : M E X A) : covers p q -> (forall e', cov Q q (m q e')) ->
  cov Q p ((set_pos q ;; m) p e).
Proof.
  intros [H1 H2] H. unfold bind, set_pos. specialize (H e). unfold cov in *. destruct (m q e) as [[[a|y| |] q'] e']; auto.
  destruct H as (H3 & H4 & H5). split; [lia|]. split; [|exact H5]. intros i Hi.
  destruct (Nat.lt_ge_cases i q); [apply H2; lia|apply H4; lia].
Qed.

(** *** Reads *)

Lemma slice_still q0 n p e : still (fun _ => covers q0 (q0 + N.to_nat n)) p (read_slice b q0 n p e).
Proof.
  unfold read_slice, still. destruct (rd b q0 n e) as [[l|x] e'] eqn:H; [|exact I].
  split; [reflexivity|]. split; [lia|]. intros i Hi. exact (Hrd _ _ _ _ _ H i Hi).
Qed.

Lemma byte_still q0 p e : still (fun _ => covers q0 (q0 + 1)) p (read_byte b q0 p e).
Proof.
  unfold read_byte. eapply still_bind2; [apply slice_still|]. intros l e' Hc. change (N.to_nat 1) with 1%nat in Hc.
  destruct l as [|x [|y l]]; [exact I| |exact I]. cbn. auto.
Qed.

Lemma find_loop_still w position k : forall i p e,
  still (fun o => match o with Some (_, n) => covers position n | None => True end) p (find_loop w b position k i p e).
Proof.
  induction k as [|k IH]; intros i p e; cbn [find_loop]; [cbn; auto|].
  destruct (MAX_COMPACT_LEN <? i)%nat; [cbn; auto|]. eapply still_bind2; [apply slice_still|]. intros l e' Hc.
  destruct (compact_decode w l) as [c|]; [|apply IH]. cbn. split; [reflexivity|].
  replace (position + i + 1)%nat with (position + N.to_nat (N.of_nat (i + 1)))%nat by lia. exact Hc.
Qed.

Lemma find_compact_still w position p e : still (fun x => covers position (snd x)) p (find_compact w b position p e).
Proof.
  unfold find_compact. destruct (total_len b <? position)%nat; [exact I|].
  eapply still_bind2; [apply find_loop_still|]. intros [[c n]|] e' H; [|exact I]. cbn. auto.
Qed.

Lemma get_pos_still {X} p e : still (fun a => a = p) p (@get_pos E X p e).
Proof. cbn. auto. Qed.

Lemma get_compact_cov w p e : cov any p (get_compact w b p e).
Proof.
  unfold get_compact. eapply still_bind; [apply get_pos_still|]. intros a e1 ->.
  eapply still_bind; [apply find_compact_still|]. intros x e2 H. apply cov_set; [exact H|]. intros. apply cov_ret.
Qed.

Lemma cut_cov {A} n name (f : bytes -> option A) p e : cov any p (cut_and_decode b n name f p e).
Proof.
  unfold cut_and_decode. eapply still_bind; [apply get_pos_still|]. intros a e1 ->.
  eapply still_bind with (Q := fun _ => covers p (p + N.to_nat n)).
  { unfold read_exact. eapply still_bind2; [apply get_pos_still|]. intros a e2 ->.
    eapply still_bind2; [apply slice_still|]. intros l e3 H. destruct (_ =? _)%N; cbn; auto. }
  intros l e2 H. destruct (f l) as [x|]; [|exact I]. unfold shift_pos.
  eapply cov_bind with (Q := any); [|intros; apply cov_ret].
  eapply still_bind; [apply get_pos_still|]. intros a e3 ->. cbn. destruct H as [H1 H2]. split; [exact H1|split; [exact H2|exact I]].
Qed.

Lemma reject_still c p e : still (fun _ => True) p (@reject_compact_m E c p e).
Proof. apply still_map_err, still_lift. Qed.

Lemma block_cov {A} c (m : M E parser_err A) p e : cov any p (m p e) -> cov any p (block_compact c m p e).
Proof. unfold block_compact. destruct (compact_at c); [intros; exact I|auto]. Qed.

Ltac step := eapply cov_bind with (Q := any); [|intros; try apply cov_ret].
Ltac stay := eapply still_bind with (Q := fun _ => True); [first [apply reject_still|apply still_map_err, still_lift]|intros ? ? _].

Lemma era_cov p e : cov any p (special_case_era b p e).
Proof.
  unfold special_case_era. eapply still_bind; [apply get_pos_still|]. intros a e1 ->.
  eapply still_bind; [apply slice_still|]. intros l1 e2 H. destruct (era_decode_all l1).
  - apply cov_set; [exact H|]. intros. apply cov_ret.
  - eapply still_bind; [apply slice_still|]. intros l2 e3 H2. destruct (era_decode_all l2); [|exact I].
    apply cov_set; [exact H2|]. intros. apply cov_ret.
Qed.

Lemma covers_trans p q s : covers p q -> covers q s -> covers p s.
Proof.
  intros [H1 H2] [H3 H4]. split; [lia|]. intros i Hi. destruct (Nat.lt_ge_cases i q); [apply H2; lia|apply H4; lia].
Qed.

Lemma str_cov h p e : cov any p (decode_str b h p e).
Proof.
  unfold decode_str. eapply still_bind; [apply get_pos_still|]. intros a e1 ->.
  eapply still_bind; [apply find_compact_still|]. intros [n s] e2 H. cbn [snd] in H.
  eapply still_bind; [apply slice_still|]. intros l e3 H2. destruct (utf8_valid l); [|exact I].
  apply cov_set; [exact (covers_trans _ _ _ H H2)|]. intros. apply cov_ret.
Qed.

Lemma uint_cov w c p e : cov any p (parse_uint b w c p e).
Proof. unfold parse_uint. step. destruct (compact_at c); [apply get_compact_cov|apply cut_cov]. Qed.

Lemma primitive_cov x c p e : cov any p (decode_primitive b x c p e).
Proof.
  destruct x; cbn [decode_primitive]; try (apply block_cov; step; apply cut_cov).
  - stay. apply str_cov.
  - apply uint_cov.
Qed.

Lemma per_cov k c p e : cov any p (parse_per b k c p e).
Proof. unfold parse_per. step. destruct (compact_at c); [step; apply get_compact_cov|apply cut_cov]. Qed.

Lemma bits_cov n p e : cov any p (into_bitvec_decode b n p e).
Proof.
  unfold into_bitvec_decode. eapply still_bind; [apply get_pos_still|]. intros a e1 ->.
  eapply still_bind with (Q := fun _ => True).
  { unfold bitvec_positions. eapply still_bind2; [apply find_compact_still|]. intros [x s] e2 _. cbn. auto. }
  intros [[x y] m] e2 _. eapply still_bind; [apply slice_still|]. intros l e3 H. apply cov_set; [exact H|]. intros. apply cov_ret.
Qed.

(** *** The registry *)

Lemma resolve_still id p e : still (fun _ => True) p (resolve_ty r id p e).
Proof. unfold resolve_ty. destruct (resolve r id e) as [[t|x] e']; cbn; auto. Qed.

Lemma lift_int_still {A} (x : A + int_err) p e : still (fun _ => True) p (@lift_int E A x p e).
Proof. apply still_map_err, still_lift. Qed.

Lemma husk_loop_still fuel : forall t id c acc p e, still (fun _ => True) p (husk_loop r fuel t id c acc p e).
Proof.
  induction fuel as [|fuel IH]; intros t id c acc p e; cbn [husk_loop]; [exact I|]. cbv zeta.
  destruct (hinted_from_type t); try (cbn; auto; fail).
  destruct (t_def t) as [fs| | | | | |inner| ]; try (cbn; auto; fail).
  - destruct fs as [|f [|g fs]]; try (cbn; auto; fail).
    eapply still_bind2; [apply lift_int_still|]. intros c1 e1 _. eapply still_bind2; [apply resolve_still|]. intros t1 e2 _. apply IH.
  - eapply still_bind2; [apply lift_int_still|]. intros u e1 _. eapply still_bind2; [apply lift_int_still|]. intros c1 e2 _.
    eapply still_bind2; [apply resolve_still|]. intros t1 e3 _. apply IH.
Qed.

Lemma husk_still id c p e : still (fun _ => True) p (husk_type r id c p e).
Proof.
  unfold husk_type. eapply still_bind2; [apply lift_int_still|]. intros c1 e1 _. cbv zeta.
  eapply still_bind2; [apply resolve_still|]. intros t e2 _. apply husk_loop_still.
Qed.

Lemma bit_order_still order id p e : still (fun _ => True) p (find_bit_order_ty r order id p e).
Proof.
  unfold find_bit_order_ty. eapply still_bind2; [apply resolve_still|]. intros t e1 _.
  destruct (t_def t); try exact I. destruct (path_ident (t_path t)); [|exact I].
  destruct (String.eqb _ _); [cbn; auto|]. destruct (String.eqb _ _); [cbn; auto|exact I].
Qed.

Lemma bit_sequence_cov store order id p e : cov any p (decode_bit_sequence b r store order id p e).
Proof.
  unfold decode_bit_sequence. eapply still_bind; [apply get_pos_still|]. intros a e1 ->.
  eapply still_bind; [apply still_map_err, bit_order_still|]. intros o e2 _.
  eapply still_bind; [apply still_map_err, resolve_still|]. intros t e3 _.
  destruct (t_def t) as [| | | | |pr| |]; try exact I. destruct pr as [| | |w| | | ]; try exact I.
  assert (G : cov any p ((do l <- into_bitvec_decode b (N.of_nat (usize w));
      match bitvec_decode_all w o l with
      | Some bits => ret (DBitVec w o bits)
      | None => fail (TypeFailure p (bitvec_name w o)) end) p e3)).
  { step; [apply bits_cov|]. match goal with |- context [bitvec_decode_all w o ?l] => destruct (bitvec_decode_all w o l) end; [apply cov_ret|exact I]. }
  destruct w; first [exact I|exact G].
Qed.

Lemma pick_still vs a p e : still (fun _ => covers a (a + 1)) p (pick_variant b vs a p e).
Proof.
  unfold pick_variant. eapply still_bind2; [apply byte_still|]. intros x e1 H. destruct (find_variant vs x); cbn; auto.
Qed.

(** Errors leave the position where it was. *)
Definition stays {X A} (Q : A -> Prop) (p : nat) (x : outcome X A * nat * E) : Prop :=
  let '(o, q, _) := x in match o with Ok a => q = p /\ Q a | _ => q = p end.

Lemma stays_bind {X A B} (Q : A -> Prop) (Q2 : B -> Prop) (m : M E X A) f p e :
  stays Q p (m p e) -> (forall a e', Q a -> stays Q2 p (f a p e')) -> stays Q2 p (bind m f p e).
Proof.
  unfold bind, stays. destruct (m p e) as [[[a|x| |] q] e1]; try (intros; assumption). intros [-> H1] H. exact (H a e1 H1).
Qed.

Lemma stays_catch {X Y A} (Q : A -> Prop) (m : M E X A) p e : stays Q p (m p e) ->
  still (fun s => match s with inl a => Q a | inr _ => True end) p (@catch E X Y A m p e).
Proof. unfold catch, stays, still. destruct (m p e) as [[[a|x| |] q] e1]; auto. Qed.

Lemma slice_stays q0 n p e : stays (fun _ => covers q0 (q0 + N.to_nat n)) p (read_slice b q0 n p e).
Proof.
  unfold read_slice, stays. destruct (rd b q0 n e) as [[l|x] e'] eqn:H; [|reflexivity].
  split; [reflexivity|]. split; [lia|]. intros i Hi. exact (Hrd _ _ _ _ _ H i Hi).
Qed.

Lemma pick_stays vs a p e : stays (fun _ => covers a (a + 1)) p (pick_variant b vs a p e).
Proof.
  unfold pick_variant, read_byte. eapply stays_bind with (Q := fun _ => covers a (a + 1)).
  { eapply stays_bind; [apply slice_stays|]. intros l e' Hc. change (N.to_nat 1) with 1%nat in Hc.
    destruct l as [|x [|y l]]; [reflexivity| |reflexivity]. cbn. auto. }
  intros x e1 H. destruct (find_variant vs x); cbn; auto.
Qed.

Lemma resolve_stays id p e : stays (fun _ => True) p (resolve_ty r id p e).
Proof. unfold resolve_ty. destruct (resolve r id e) as [[t|x] e']; cbn; auto. Qed.

Lemma lift_int_stays {A} (x : A + int_err) p e : stays (fun _ => True) p (@lift_int E A x p e).
Proof. destruct x; cbn; auto. Qed.

Lemma husk_loop_stays fuel : forall t id c acc p e, stays (fun _ => True) p (husk_loop r fuel t id c acc p e).
Proof.
  induction fuel as [|fuel IH]; intros t id c acc p e; cbn [husk_loop]; [reflexivity|]. cbv zeta.
  destruct (hinted_from_type t); try (cbn; auto; fail).
  destruct (t_def t) as [fs| | | | | |inner| ]; try (cbn; auto; fail).
  - destruct fs as [|f [|g fs]]; try (cbn; auto; fail).
    eapply stays_bind; [apply lift_int_stays|]. intros c1 e1 _. eapply stays_bind; [apply resolve_stays|]. intros t1 e2 _. apply IH.
  - eapply stays_bind; [apply lift_int_stays|]. intros u e1 _. eapply stays_bind; [apply lift_int_stays|]. intros c1 e2 _.
    eapply stays_bind; [apply resolve_stays|]. intros t1 e3 _. apply IH.
Qed.

Lemma husk_stays id c p e : stays (fun _ => True) p (husk_type r id c p e).
Proof.
  unfold husk_type. eapply stays_bind; [apply lift_int_stays|]. intros c1 e1 _. cbv zeta.
  eapply stays_bind; [apply resolve_stays|]. intros t e2 _. apply husk_loop_stays.
Qed.

Lemma signature_still f p e : still (fun _ => True) p (signature_from_field r f p e).
Proof.
  unfold signature_from_field. eapply still_bind2; [apply stays_catch, husk_stays|]. intros [hu|x] e1 _; [|cbn; auto].
  destruct (t_def (hu_ty hu)); try (cbn; auto; fail).
  eapply still_bind2; [apply stays_catch, resolve_stays|]. intros [t|x] e2 _; [|cbn; auto].
  destruct (t_def t) as [| | | | |pr| |]; try (cbn; auto; fail). destruct pr as [| | |w| | | ]; try (cbn; auto; fail).
  destruct w; try (cbn; auto; fail). destruct (f_type_name f); [|cbn; auto].
  repeat match goal with |- context [if ?c then _ else _] => destruct c end; cbn; auto.
Qed.

Lemma checked_cov t p e : cov any p (checked_from_type b r t p e).
Proof.
  unfold checked_from_type. destruct (hinted_from_type t); try apply cov_ret.
  - destruct (t_def t); try apply cov_ret.
    eapply still_bind; [apply get_pos_still|]. intros a e1 ->.
    eapply still_bind; [apply stays_catch, pick_stays|]. intros [v|x] e2 H; [|apply cov_ret].
    destruct (v_fields v) as [|f [|g fs]]; try apply cov_ret.
    eapply still_bind; [apply signature_still|]. intros s e3 _.
    destruct s; [apply cov_ret|..]; (apply cov_set; [exact H|intros; apply cov_ret]).
  - destruct (t_def t); try apply cov_ret.
    eapply still_bind; [apply get_pos_still|]. intros a e1 ->.
    eapply still_bind; [apply stays_catch, pick_stays|]. intros [v|x] e2 H; [|apply cov_ret].
    destruct (v_fields v) as [|f [|g fs]]; try apply cov_ret.
    eapply still_bind; [apply stays_catch, resolve_stays|]. intros [t2|x] e3 _; [|apply cov_ret].
    destruct (hinted_from_type t2); try apply cov_ret. destruct (pitem_eqb _ _); try apply cov_ret.
    destruct (t_def t2); try apply cov_ret. apply cov_set; [exact H|intros; apply cov_ret].
Qed.

Section Step.
Variable dec : ty_input -> propagated -> M E parser_err (ext pdata).
Hypothesis Hdec : forall i P p e, cov any p (dec i P p e).

Lemma fields_loop_cov fs c : forall p e, cov any p (fields_loop dec fs c p e).
Proof.
  induction fs as [|f fs IH]; intros p e; cbn [fields_loop]; [apply cov_ret|].
  stay. step; [apply Hdec|]. step. apply IH.
Qed.

Lemma fields_cov fs c p e : cov any p (decode_fields dec fs c p e).
Proof.
  unfold decode_fields. destruct fs as [|f [|g fs]]; try apply fields_loop_cov. stay. apply fields_loop_cov.
Qed.

Lemma variant_cov vs p e : cov any p (decode_variant b dec vs p e).
Proof.
  unfold decode_variant. eapply still_bind; [apply get_pos_still|]. intros a e1 ->.
  eapply still_bind; [apply pick_still|]. intros v e2 H. apply cov_set; [exact H|]. intros e3. step. apply fields_cov.
Qed.

Lemma elements_loop_cov n hu : forall p e, cov any p (elements_loop dec n hu p e).
Proof.
  induction n as [|n IH]; intros p e; cbn [elements_loop]; [apply cov_ret|]. step; [apply Hdec|]. step. apply IH.
Qed.

Lemma elements_cov el n P p e : cov any p (decode_elements_set r dec el n P p e).
Proof.
  unfold decode_elements_set. stay. eapply still_bind; [apply still_map_err, husk_still|]. intros hu e1 _.
  destruct (n =? 0)%N; [apply cov_ret|]. step. apply elements_loop_cov.
Qed.

Lemma tuple_loop_cov ids c : forall p e, cov any p (tuple_loop r dec ids c p e).
Proof.
  induction ids as [|i ids IH]; intros p e; cbn [tuple_loop]; [apply cov_ret|].
  eapply still_bind; [apply still_map_err, resolve_still|]. intros t e1 _. stay. step; [apply Hdec|]. step. apply IH.
Qed.

Lemma plain_cov t id P p e : cov any p (decode_plain b r dec t id P p e).
Proof.
  unfold decode_plain. destruct (t_def t) as [fs|vs|el|len el|ids|pr|inner|store order].
  - step. apply fields_cov.
  - stay. destruct vs; [apply cov_ret|]. step. apply variant_cov.
  - step; [apply get_compact_cov|]. apply elements_cov.
  - apply elements_cov.
  - destruct ids as [|i [|j ids]]; [| |stay]; step; apply tuple_loop_cov.
  - step. apply primitive_cov.
  - stay. stay. apply Hdec.
  - stay. step. apply bit_sequence_cov.
Qed.

Lemma decode_checked_cov k t id P p e : cov any p (decode_checked b r dec k t id P p e).
Proof.
  destruct k; cbn [decode_checked].
  - apply plain_cov.
  - step. apply block_cov. step. apply cut_cov.
  - stay. step. apply era_cov.
  - stay. step. unfold special_case_h256. step. apply cut_cov.
  - stay. step. apply variant_cov.
  - step. apply per_cov.
Qed.

Lemma body_cov i P p e : cov any p (decode_body b r dec i P p e).
Proof.
  unfold decode_body. eapply still_bind with (Q := fun _ => True).
  - destruct i as [t id|id]; [cbn; auto|]. eapply still_bind2; [apply still_map_err, resolve_still|]. intros; cbn; auto.
  - intros [t id] e1 _. cbv zeta. step; [apply checked_cov|]. apply decode_checked_cov.
Qed.
End Step.

Lemma decode_cov fuel : forall i P p e, cov any p (decode b r fuel i P p e).
Proof. induction fuel as [|fuel IH]; intros; cbn [decode]; [exact I|]. apply body_cov, IH. Qed.

Theorem consumed_is_read i P p e x q e' : decode_with_type b r i P p e = (Ok x, q, e') ->
  (p <= q)%nat /\ forall a, (p <= a < q)%nat -> R a.
Proof.
  intros H. pose proof (decode_cov (decode_fuel b r) i P p e) as C. unfold decode_with_type in H. rewrite H in C.
  cbn in C. tauto.
Qed.
End Cover.
