(** Errors are about the place they name (C60): a run over one slice, and over another that
    agrees with it as far as the error says. *)
From Coq Require Import Lia ZifyBool ZifyNat ZifyN.
From Verif Require Import Base Compact Types Indicators Decode Spec SpecHusk ProofBase ProofCompact ProofTables ProofPeel ProofRead ProofSpec ProofHusk.
Local Open Scope list_scope.

Section Firm.
Variable types : list ty.
Variable D1 D2 : bytes.
Hypothesis Hb1 : is_bytes D1.
Hypothesis Hb2 : is_bytes D2.
Hypothesis Hne : D1 <> D2.
Context {E : Type}.
Local Notation L1 := (List.length D1).
Local Notation L2 := (List.length D2).
Local Notation b1 := (@slice_buffer E D1).
Local Notation b2 := (@slice_buffer E D2).
Local Notation r := (@portable E types).

Definition agree (k : nat) : Prop := (k <= L1)%nat /\ (k <= L2)%nat /\ firstn k D1 = firstn k D2.

(** Where two slices must agree to give the same error. *)
Definition same (x : parser_err) (q : nat) : Prop :=
  match x with
  | PRegistry (RInternal _) => agree q
  | UnexpectedEnumVariant at_p => agree (at_p + 1)
  | TypeFailure _ _ => agree L1
  | PBuffer (DataTooShort at_p n) => agree L1 /\ (N.of_nat L2 < N.of_nat at_p + n)%N
  | NoCompact at_p => agree (at_p + 17)
  | _ => False
  end.

(** What an error says about the data; [p] is where decoding started. *)
Definition told (p : nat) (x : parser_err) : Prop :=
  match x with
  | PRegistry (RInternal _) => True
  | UnexpectedEnumVariant at_p => (p <= at_p < L1)%nat
  | TypeFailure at_p _ => (p <= at_p < L1)%nat
  | PBuffer (DataTooShort at_p n) => (p <= at_p <= L1)%nat /\ (N.of_nat L1 < N.of_nat at_p + n)%N
  | NoCompact at_p => (p <= at_p <= L1)%nat /\
      exists w, forall v rest, fits w v = true -> skipn at_p D1 <> compact_enc v ++ rest
  | _ => False
  end.

Lemma agree_le j k : agree k -> (j <= k)%nat -> agree j.
Proof.
  intros (H1 & H2 & H3) H. split; [lia|]. split; [lia|].
  assert (Hj : j = Nat.min j k) by lia. rewrite Hj, <- !firstn_firstn, H3. reflexivity.
Qed.

Lemma agree_slice k p n : agree k -> (p + n <= k)%nat -> slice D1 p n = slice D2 p n.
Proof.
  intros Hk H. destruct (agree_le _ _ Hk H) as (_ & _ & He). unfold slice.
  rewrite !firstn_skipn_comm. rewrite He. reflexivity.
Qed.

Lemma agree_nth k p : agree k -> (p < k)%nat -> nth_error D1 p = nth_error D2 p.
Proof.
  intros Hk H. destruct (agree_le (S p) _ Hk ltac:(lia)) as (H1 & H2 & He).
  assert (Hn : forall (D : bytes), (p < List.length D)%nat -> nth_error D p = nth_error (firstn (S p) D) p).
  { intros D HD. rewrite <- (firstn_skipn (S p) D) at 1. apply nth_error_app1. rewrite firstn_length. lia. }
  rewrite (Hn D1), (Hn D2) by lia. rewrite He. reflexivity.
Qed.

Lemma told_le p q x : told q x -> (p <= q)%nat -> told p x.
Proof.
  intros H Hp. destruct x as [y|y| | | |]; cbn [told] in *; try (destruct y; cbn [told] in *); try tauto; try lia.
  all: destruct H as [H1 H2]; split; [lia|exact H2].
Qed.

(** All of [D1], and [D2] no longer: then they are the same. *)
Lemma not_all : ~ (agree L1 /\ (L2 <= L1)%nat).
Proof.
  intros ((_ & H2 & H3) & H). apply Hne. rewrite firstn_all in H3. rewrite H3. apply firstn_all2. lia.
Qed.

Definition firm {A} (p t : nat) (m1 m2 : M E parser_err A) : Prop := (p <= L1)%nat -> forall e,
  match m1 p e with
  | (Ok a, q, e1) => (p <= q <= L1)%nat /\ (t <= q)%nat /\ (agree q -> m2 p e = (Ok a, q, e1))
  | (Err x, q, e1) => (p <= q <= L1)%nat /\ told p x /\
      (same x q -> agree t /\ agree p /\ exists q' e', m2 p e = (Err x, q', e'))
  | _ => True
  end.

Lemma firm_bind {A B} p t (m1 m2 : M E parser_err A) (f1 f2 : A -> M E parser_err B) :
  firm p t m1 m2 -> (forall a q, (p <= q)%nat -> (t <= q)%nat -> firm q q (f1 a) (f2 a)) -> firm p t (bind m1 f1) (bind m2 f2).
Proof.
  intros Hm Hf Hp e. specialize (Hm Hp e). unfold bind. destruct (m1 p e) as [[[a|x| |] q] e1]; try exact I.
  - destruct Hm as (H1 & H2 & H3). specialize (Hf a q (proj1 H1) H2 (proj2 H1) e1).
    destruct (f1 a q e1) as [[[c|x| |] q2] e2]; try exact I.
    + destruct Hf as (H4 & H5 & H6). split; [lia|]. split; [lia|]. intros Ha.
      rewrite (H3 (agree_le _ _ Ha (proj1 H4))). exact (H6 Ha).
    + destruct Hf as (H4 & H5 & H6). split; [lia|]. split; [apply (told_le _ _ _ H5); lia|]. intros Hs.
      destruct (H6 Hs) as (Ha & _ & H7). split; [exact (agree_le _ _ Ha H2)|]. split; [exact (agree_le _ _ Ha (proj1 H1))|].
      rewrite (H3 Ha). exact H7.
  - destruct Hm as (H1 & H2 & H3). split; [exact H1|]. split; [exact H2|]. intros Hs. destruct (H3 Hs) as (Ha & Ha2 & q' & e' & Hq).
    split; [exact Ha|]. split; [exact Ha2|]. rewrite Hq. eauto.
Qed.

Lemma firm_ret {A} p (a : A) : firm p p (ret a) (ret a).
Proof. intros Hp e. cbn. split; [lia|]. split; [lia|]. reflexivity. Qed.

(** Computations that leave the data alone; the same on both sides. *)
Definition quiet {A} (m : M E parser_err A) : Prop := forall p e,
  match m p e with
  | (Ok a, q, e1) => q = p /\ e1 = e
  | (Err x, q, e1) => q = p /\ exists y, x = PRegistry (RInternal y)
  | _ => True
  end.

Lemma quiet_bind {A B} p t (m : M E parser_err A) (f1 f2 : A -> M E parser_err B) : quiet m -> (t <= p)%nat ->
  (forall a, firm p t (f1 a) (f2 a)) -> firm p t (bind m f1) (bind m f2).
Proof.
  intros Hm Ht Hf Hp e. specialize (Hm p e). unfold bind. destruct (m p e) as [[[a|x| |] q] e1]; try exact I.
  - destruct Hm as [-> ->]. exact (Hf a Hp e).
  - destruct Hm as [-> (y & ->)]. split; [lia|]. split; [exact I|]. cbn [same]. intros Ha.
    split; [exact (agree_le _ _ Ha Ht)|]. split; [exact Ha|]. eauto.
Qed.

Definition quiet_r {A} (m : M E reg_err A) : Prop := forall p e,
  match m p e with
  | (Ok a, q, e1) => q = p /\ e1 = e
  | (Err x, q, e1) => q = p /\ e1 = e /\ exists y, x = RInternal y
  | _ => True
  end.

Lemma quiet_registry {A} (m : M E reg_err A) : quiet_r m -> quiet (map_err PRegistry m).
Proof.
  intros H p e. specialize (H p e). unfold map_err. destruct (m p e) as [[[a|x| |] q] e1]; try exact I; [exact H|].
  destruct H as (-> & -> & y & ->). eauto.
Qed.

Lemma quiet_lift {A} (x : A + int_err) : quiet (lift_p x).
Proof. intros p e. destruct x; cbn; eauto. Qed.

Lemma quiet_reject c : quiet (reject_compact_m c).
Proof. apply quiet_lift. Qed.

Lemma quiet_resolve id : quiet_r (resolve_ty r id).
Proof. intros p e. pose proof (resolve_total types id p e) as H. destruct (lookup types id); rewrite H; cbn; eauto. Qed.

Lemma quiet_husk id c : quiet_r (husk_type r id c).
Proof.
  intros p e. destruct (husk_exact types id c p e) as (o & Ho & ->). destruct o as [x|x]; [auto|].
  split; [reflexivity|]. split; [reflexivity|]. clear p e. 
  assert (H : forall s cp h i o, reaches types s cp h i o -> match o with inl _ => True | inr y => exists z, y = RInternal z end).
  { induction 1; eauto; unfold outside; match goal with H : reaches _ _ _ _ _ ?o |- _ => destruct o end; auto. }
  exact (H _ _ _ _ _ Ho).
Qed.

Lemma quiet_order order id : quiet_r (find_bit_order_ty r order id).
Proof.
  intros p e. destruct (order_exact types order id p e) as (o & Ho & ->). destruct Ho; cbn; eauto.
Qed.

(** *** Reads *)

(** A read at the current position, of bytes up to [T a]. *)
Definition hold {A} (T : A -> nat) (p : nat) (m1 m2 : M E parser_err A) : Prop := (p <= L1)%nat -> forall e,
  match m1 p e with
  | (Ok a, q, e1) => q = p /\ (p < T a <= L1)%nat /\ (agree (T a) -> m2 p e = (Ok a, q, e1))
  | (Err x, q, e1) => q = p /\ told p x /\ (same x q -> agree p /\ exists q' e', m2 p e = (Err x, q', e'))
  | _ => True
  end.

Lemma hold_bind {A B} T p (m1 m2 : M E parser_err A) (f1 f2 : A -> M E parser_err B) : hold T p m1 m2 ->
  (forall a, (p < T a <= L1)%nat -> firm p (T a) (f1 a) (f2 a)) -> firm p p (bind m1 f1) (bind m2 f2).
Proof.
  intros Hm Hf Hp e. specialize (Hm Hp e). unfold bind. destruct (m1 p e) as [[[a|x| |] q] e1]; try exact I.
  - destruct Hm as (-> & H2 & H3). specialize (Hf a H2 Hp e1).
    destruct (f1 a p e1) as [[[c|x| |] q2] e2]; try exact I.
    + destruct Hf as (H4 & H5 & H6). split; [lia|]. split; [lia|]. intros Ha.
      rewrite (H3 (agree_le _ _ Ha H5)). exact (H6 Ha).
    + destruct Hf as (H4 & H5 & H6). split; [lia|]. split; [exact H5|]. intros Hs.
      destruct (H6 Hs) as (Ha & Ha2 & H7). split; [exact Ha2|]. split; [exact Ha2|]. rewrite (H3 Ha). exact H7.
  - destruct Hm as (-> & H2 & H3). split; [lia|]. split; [exact H2|]. intros Hs. destruct (H3 Hs) as (Ha2 & q' & e' & Hq).
    split; [exact Ha2|]. split; [exact Ha2|]. rewrite Hq. eauto.
Qed.

(** The same, when the whole is known to reach [t] anyhow. *)
Lemma hold_bind_at {A B} T p t (m1 m2 : M E parser_err A) (f1 f2 : A -> M E parser_err B) : hold T p m1 m2 ->
  (forall e, match m1 p e with (Err x, q, _) => same x q -> agree t | _ => True end) ->
  (forall a, (p < T a <= L1)%nat -> (t <= T a)%nat /\ firm p (T a) (f1 a) (f2 a)) -> firm p t (bind m1 f1) (bind m2 f2).
Proof.
  intros Hm Ht Hf Hp e. specialize (Hm Hp e). specialize (Ht e). unfold bind. destruct (m1 p e) as [[[a|x| |] q] e1]; try exact I.
  - destruct Hm as (-> & H2 & H3). destruct (Hf a H2) as [H0 Hf2]. specialize (Hf2 Hp e1).
    destruct (f1 a p e1) as [[[c|x| |] q2] e2]; try exact I.
    + destruct Hf2 as (H4 & H5 & H6). split; [lia|]. split; [lia|]. intros Ha.
      rewrite (H3 (agree_le _ _ Ha H5)). exact (H6 Ha).
    + destruct Hf2 as (H4 & H5 & H6). split; [lia|]. split; [exact H5|]. intros Hs.
      destruct (H6 Hs) as (Ha & Ha2 & H7). split; [exact (agree_le _ _ Ha H0)|]. split; [exact Ha2|]. rewrite (H3 Ha). exact H7.
  - destruct Hm as (-> & H2 & H3). split; [lia|]. split; [exact H2|]. intros Hs. destruct (H3 Hs) as (Ha2 & q' & e' & Hq).
    split; [auto|]. split; [exact Ha2|]. rewrite Hq. eauto.
Qed.

Lemma hold_bind2 {A B} T T2 p (m1 m2 : M E parser_err A) (f1 f2 : A -> M E parser_err B) : hold T p m1 m2 ->
  (forall a, (p < T a <= L1)%nat -> forall e,
     match f1 a p e with
     | (Ok c, q, e1) => q = p /\ (T a <= T2 c <= L1)%nat /\ (agree (T2 c) -> f2 a p e = (Ok c, q, e1))
     | (Err x, q, e1) => q = p /\ told p x /\ (same x q -> agree (T a) /\ exists q' e', f2 a p e = (Err x, q', e'))
     | _ => True
     end) -> hold T2 p (bind m1 f1) (bind m2 f2).
Proof.
  intros Hm Hf Hp e. specialize (Hm Hp e). unfold bind. destruct (m1 p e) as [[[a|x| |] q] e1]; try exact I.
  - destruct Hm as (-> & H2 & H3). specialize (Hf a H2 e1).
    destruct (f1 a p e1) as [[[c|x| |] q2] e2]; try exact I.
    + destruct Hf as (-> & H5 & H6). split; [reflexivity|]. split; [lia|]. intros Ha.
      rewrite (H3 (agree_le _ _ Ha (proj1 H5))). exact (H6 Ha).
    + destruct Hf as (-> & H5 & H6). split; [reflexivity|]. split; [exact H5|]. intros Hs.
      destruct (H6 Hs) as (Ha & H7). split; [apply (agree_le _ _ Ha); lia|]. rewrite (H3 Ha). exact H7.
  - destruct Hm as (-> & H2 & H3). split; [reflexivity|]. split; [exact H2|]. intros Hs. destruct (H3 Hs) as (Ha2 & q' & e' & Hq).
    split; [exact Ha2|]. rewrite Hq. eauto.
Qed.

Lemma get_bind {B} p t (f1 f2 : nat -> M E parser_err B) : firm p t (f1 p) (f2 p) -> firm p t (bind get_pos f1) (bind get_pos f2).
Proof. intros H. exact H. Qed.

Lemma get_hold {B} (T : B -> nat) p (f1 f2 : nat -> M E parser_err B) : hold T p (f1 p) (f2 p) -> hold T p (bind get_pos f1) (bind get_pos f2).
Proof. intros H. exact H. Qed.

Lemma firm_set {A} p t q (m1 m2 : M E parser_err A) : (p <= q <= L1)%nat -> (t <= q)%nat -> firm q q m1 m2 ->
  firm p t (set_pos q ;; m1) (set_pos q ;; m2).
Proof.
  intros Hq Ht H Hp e. unfold bind, set_pos. specialize (H (proj2 Hq) e). destruct (m1 q e) as [[[a|x| |] q2] e1]; try exact I.
  - destruct H as (H1 & H2 & H3). split; [lia|]. split; [lia|]. exact H3.
  - destruct H as (H1 & H2 & H3). split; [lia|]. split; [apply (told_le _ _ _ H2); lia|]. intros Hs.
    destruct (H3 Hs) as (Ha & _ & H4). split; [exact (agree_le _ _ Ha Ht)|]. split; [apply (agree_le _ _ Ha); lia|exact H4].
Qed.

Lemma firm_set_ret {A} p t q (a : A) : (p <= q <= L1)%nat -> (t <= q)%nat -> firm p t (set_pos q ;; ret a) (set_pos q ;; ret a).
Proof. intros Hq Ht. apply firm_set; auto. apply firm_ret. Qed.

Lemma firm_wrong {A} p t at_p name : (p <= at_p < L1)%nat -> (t <= L1)%nat -> @firm A p t (fail (TypeFailure at_p name)) (fail (TypeFailure at_p name)).
Proof.
  intros H Ht Hp e. cbn [fail]. split; [lia|]. split; [exact H|]. cbn [same]. intros Ha. split; [exact (agree_le _ _ Ha Ht)|].
  split; [exact (agree_le _ _ Ha Hp)|]. eexists _, _. reflexivity.
Qed.

Lemma slice_hold s n p : (p <= s <= L1)%nat -> forall e,
  match read_slice b1 s n p e with
  | (Ok a, q, e1) => q = p /\ (s + N.to_nat n <= L1)%nat /\ a = slice D1 s (N.to_nat n) /\
      (agree (s + N.to_nat n) -> read_slice b2 s n p e = (Ok a, q, e1))
  | (Err x, q, e1) => q = p /\ told p x /\ (same x q -> agree L1 /\ exists q' e', read_slice b2 s n p e = (Err x, q', e'))
  | _ => True
  end.
Proof.
  intros Hs e. unfold read_slice at 1. cbn [rd slice_buffer]. unfold slice_rd at 1.
  destruct (L1 <? s)%nat eqn:H1; [lia|]. destruct (N.of_nat L1 <? N.of_nat s + n)%N eqn:H2.
  - split; [reflexivity|]. cbn [told]. split; [lia|]. cbn [same]. intros [Ha Hl]. split; [exact Ha|].
    unfold read_slice. cbn [rd slice_buffer]. unfold slice_rd. destruct Ha as (Ha & Ha2 & _).
    destruct (L2 <? s)%nat eqn:H3; [lia|]. destruct (N.of_nat L2 <? N.of_nat s + n)%N eqn:H4; [eauto|lia].
  - split; [reflexivity|]. split; [lia|]. split; [reflexivity|]. intros Ha.
    rewrite (agree_slice _ s (N.to_nat n) Ha ltac:(lia)). destruct Ha as (Ha & Ha2 & _). apply read_slice_do. lia.
Qed.

Lemma slice_hold_p n p : (0 < n)%N -> hold (fun _ => p + N.to_nat n)%nat p (read_slice b1 p n) (read_slice b2 p n).
Proof.
  intros Hn Hp e. pose proof (slice_hold p n p ltac:(lia) e) as H. destruct (read_slice b1 p n p e) as [[[a|x| |] q] e1]; try exact I.
  - destruct H as (H1 & H2 & _ & H3). split; [exact H1|]. split; [lia|exact H3].
  - destruct H as (H1 & H2 & H3). split; [exact H1|]. split; [exact H2|]. intros Hs. destruct (H3 Hs) as [Ha H4].
    split; [apply (agree_le _ _ Ha); lia|exact H4].
Qed.

Lemma find_hold w p : hold snd p (find_compact w b1 p) (find_compact w b2 p).
Proof.
  intros Hp e. destruct (find_compact_total D1 Hb1 w p p e) as [(n & p' & H)|(x & H & Hx & Hn)]; rewrite H.
  - split; [reflexivity|]. apply find_compact_ok in H; [|exact Hb1]. destruct H as (_ & _ & Hf & Hp' & Hl & Hsl). cbn [snd]. pose proof (compact_enc_length w n Hf). split; [lia|].
    intros Ha. apply find_compact_ok; [exact Hb2|]. repeat split; auto.
    + destruct Ha as (_ & Ha & _). lia.
    + rewrite <- (agree_slice _ _ _ Ha) by lia. exact Hsl.
  - split; [reflexivity|]. destruct Hx as [-> | [-> Hx] ]; [|lia]. split.
    + cbn [told]. split; [lia|]. exists w. intros v rest Hf He. apply (Hn v Hf).
      * pose proof (f_equal (@List.length N) He) as Hl. rewrite skipn_length, app_length in Hl. lia.
      * unfold slice. rewrite He. apply firstn_app_exact.
    + cbn [same]. intros Ha. split; [apply (agree_le _ _ Ha); lia|].
      destruct (find_compact_total D2 Hb2 w p p e) as [(n & p' & H2)|(x & H2 & Hx & _)].
      * exfalso. apply find_compact_ok in H2; [|exact Hb2]. destruct H2 as (_ & _ & Hf & Hp' & Hl & Hsl).
        pose proof (compact_enc_length w n Hf) as Hlen. apply (Hn n Hf); [destruct Ha as (Ha & _); lia|].
        rewrite (agree_slice _ _ _ Ha) by lia. exact Hsl.
      * rewrite H2. destruct Hx as [-> | [_ Hx] ]; [eauto|]. destruct Ha as (_ & Ha & _). lia.
Qed.

Lemma get_compact_firm w p : firm p p (get_compact w b1) (get_compact w b2).
Proof.
  unfold get_compact. apply get_bind. eapply hold_bind; [apply find_hold|]. intros [n q] Hq. cbn [fst snd] in *.
  apply firm_set_ret; lia.
Qed.

Lemma cut_firm {A} n name (f : bytes -> option A) p : (0 < n)%N -> firm p p (cut_and_decode b1 n name f) (cut_and_decode b2 n name f).
Proof.
  intros Hn. unfold cut_and_decode. apply get_bind. eapply hold_bind with (T := fun _ => (p + N.to_nat n)%nat).
  - unfold read_exact. apply get_hold.
    apply (hold_bind2 (fun _ => p + N.to_nat n)%nat (fun _ => p + N.to_nat n)%nat p); [apply slice_hold_p, Hn|].
    intros a Ha e1. destruct (_ =? n)%N; [|exact I]. cbn [ret]. split; [reflexivity|]. split; [lia|reflexivity].
  - intros l Hl. destruct (f l) as [a|]; [|apply firm_wrong; lia].
    unfold shift_pos. intros Hp e. unfold bind, get_pos, set_pos, ret. split; [lia|]. split; [lia|reflexivity].
Qed.

Lemma block_firm {A} c p (m1 m2 : M E parser_err A) : firm p p m1 m2 -> firm p p (block_compact c m1) (block_compact c m2).
Proof.
  intros H. unfold block_compact. destruct (compact_at c); [|exact H]. intros Hp e. cbn [fail].
  split; [lia|]. split; [exact I|]. cbn [same]. intros Ha. split; [exact Ha|]. split; [exact Ha|]. eexists _, _. reflexivity.
Qed.

Ltac step := apply firm_bind; [|intros; try apply firm_ret].

Lemma era_firm p : firm p p (special_case_era b1) (special_case_era b2).
Proof.
  unfold special_case_era. apply get_bind. eapply hold_bind; [apply (slice_hold_p 1); lia|]. intros l1 H1. change (N.to_nat 1) with 1%nat in *.
  cbv beta in *. destruct (era_decode_all l1); [apply firm_set_ret; lia|].
  eapply hold_bind_at with (T := fun _ => (p + 2)%nat).
  - apply (slice_hold_p 2 p). lia.
  - intros e. pose proof (slice_hold p 2 p ltac:(lia) e) as H. destruct (read_slice b1 p 2 p e) as [[[a|x| |] q] e1]; try exact I.
    destruct H as (-> & _ & H). intros Hs. apply (agree_le _ L1); [apply H, Hs|lia].
  - intros l2 H2. split; [lia|]. destruct (era_decode_all l2); [apply firm_set_ret; lia|]. apply firm_wrong; lia.
Qed.

Lemma str_firm h p : firm p p (decode_str b1 h) (decode_str b2 h).
Proof.
  unfold decode_str. apply get_bind. eapply hold_bind; [apply find_hold|]. intros [n s] Hs. cbn [snd] in *.
  intros Hp e. unfold bind at 1. unfold bind at 2. pose proof (slice_hold s n p ltac:(lia) e) as H.
  destruct (read_slice b1 s n p e) as [[[a|x| |] q] e1]; try exact I.
  - destruct H as (-> & H1 & _ & H2). destruct (utf8_valid a) eqn:Hu.
    + unfold bind at 1, set_pos, ret. split; [lia|]. split; [lia|]. intros Ha. unfold bind. rewrite (H2 Ha). rewrite Hu. reflexivity.
    + cbn [fail]. split; [lia|]. split.
      { cbn [told]. lia. }
      cbn [same]. intros Ha. split; [apply (agree_le _ _ Ha); lia|]. split; [apply (agree_le _ _ Ha); lia|].
      unfold bind. rewrite (H2 (agree_le _ _ Ha H1)). rewrite Hu. eexists _, _. reflexivity.
  - destruct H as (-> & H1 & H2). split; [lia|]. split; [exact H1|]. intros Hsm. destruct (H2 Hsm) as (Ha & q' & e' & H3).
    split; [apply (agree_le _ _ Ha); lia|]. split; [apply (agree_le _ _ Ha); lia|]. unfold bind. rewrite H3. eexists _, _. reflexivity.
Qed.

Lemma uint_firm w c p : firm p p (parse_uint b1 w c) (parse_uint b2 w c).
Proof. unfold parse_uint. step. destruct (compact_at c); [apply get_compact_firm|apply cut_firm; destruct w; reflexivity]. Qed.

Lemma primitive_firm x c p : firm p p (decode_primitive b1 x c) (decode_primitive b2 x c).
Proof.
  destruct x as [| | |w| |w|]; cbn [decode_primitive].
  - apply block_firm. step. apply cut_firm. reflexivity.
  - apply block_firm. step. apply cut_firm. reflexivity.
  - apply quiet_bind; [apply quiet_reject|lia|]. intros _. apply str_firm.
  - apply uint_firm.
  - apply block_firm. step. apply cut_firm. reflexivity.
  - apply block_firm. step. apply cut_firm. destruct w; reflexivity.
  - apply block_firm. step. apply cut_firm. reflexivity.
Qed.

Lemma per_firm k c p : firm p p (parse_per b1 k c) (parse_per b2 k c).
Proof.
  unfold parse_per. step. destruct (compact_at c); [step; apply get_compact_firm|]. apply cut_firm. destruct k; reflexivity.
Qed.

Lemma bits_firm n p : (0 < n)%N -> firm p p (into_bitvec_decode b1 n) (into_bitvec_decode b2 n).
Proof.
  intros Hn. unfold into_bitvec_decode, bitvec_positions. apply get_bind.
  intros Hp e. pose proof (find_hold U32 p Hp e) as H. unfold bind, ret. destruct (find_compact U32 b1 p p e) as [[[ [len s]|x| |] q] e1]; try exact I.
  - cbn [snd] in H. destruct H as (-> & H1 & H2). set (ml := (N.of_nat (s - p) + bitvec_elements n len * n)%N).
    pose proof (slice_hold p ml p ltac:(lia) e1) as H. destruct (read_slice b1 p ml p e1) as [[[a|x| |] q] e2]; try exact I.
    + destruct H as (-> & H3 & _ & H4). unfold set_pos. split; [lia|]. split; [lia|]. intros Ha.
      rewrite H2 by (apply (agree_le _ _ Ha); unfold ml; lia). fold ml. rewrite (H4 Ha). reflexivity.
    + destruct H as (-> & H3 & H4). split; [lia|]. split; [exact H3|]. intros Hs. destruct (H4 Hs) as (Ha & q' & e' & H5).
      split; [apply (agree_le _ _ Ha); lia|]. split; [apply (agree_le _ _ Ha); lia|].
      rewrite H2 by (apply (agree_le _ _ Ha); lia). fold ml. rewrite H5. eauto.
  - destruct H as (-> & H1 & H2). split; [lia|]. split; [exact H1|]. intros Hs. destruct (H2 Hs) as (Ha & q' & e' & H3).
    split; [exact Ha|]. split; [exact Ha|]. rewrite H3. eauto.
Qed.

(** After bits have been read there is a byte at the start. *)
Lemma bits_beyond n p e l q e' : (p <= L1)%nat -> into_bitvec_decode b1 n p e = (Ok l, q, e') -> (p < q <= L1)%nat.
Proof.
  intros Hp H. unfold into_bitvec_decode, bitvec_positions, bind, get_pos, ret, set_pos in H.
  pose proof (find_hold U32 p Hp e) as Hf. destruct (find_compact U32 b1 p p e) as [[[ [len s]|x| |] q1] e1]; try discriminate.
  cbn [snd] in Hf. destruct Hf as (-> & H1 & _). set (ml := (N.of_nat (s - p) + bitvec_elements n len * n)%N) in *.
  pose proof (slice_hold p ml p ltac:(lia) e1) as Hs. destruct (read_slice b1 p ml p e1) as [[[a|x| |] q2] e2]; try discriminate.
  destruct Hs as (-> & H3 & _). assert (q = p + N.to_nat ml)%nat by congruence. subst q. unfold ml in *. lia.
Qed.

Lemma bit_sequence_firm store order id p : firm p p (decode_bit_sequence b1 r store order id) (decode_bit_sequence b2 r store order id).
Proof.
  unfold decode_bit_sequence. apply get_bind. apply quiet_bind; [apply quiet_registry, quiet_order|lia|]. intros o.
  apply quiet_bind; [apply quiet_registry, quiet_resolve|lia|]. intros st.
  assert (Hf : forall x, @firm pdata p p (fail (PRegistry (RInternal x))) (fail (PRegistry (RInternal x)))).
  { intros x Hp e. cbn [fail]. split; [lia|]. split; [exact I|]. cbn [same]. intros Ha. split; [exact Ha|]. split; [exact Ha|]. eexists _, _. reflexivity. }
  assert (Hw : forall w, firm p p
     (do l <- into_bitvec_decode b1 (N.of_nat (usize w)); match bitvec_decode_all w o l with Some bits => ret (DBitVec w o bits) | None => fail (TypeFailure p (bitvec_name w o)) end)
     (do l <- into_bitvec_decode b2 (N.of_nat (usize w)); match bitvec_decode_all w o l with Some bits => ret (DBitVec w o bits) | None => fail (TypeFailure p (bitvec_name w o)) end)).
  { intros w Hp e. pose proof (bits_firm (N.of_nat (usize w)) p ltac:(destruct w; reflexivity) Hp e) as H.
    pose proof (bits_beyond (N.of_nat (usize w)) p e) as Hg. unfold bind.
    destruct (into_bitvec_decode b1 (N.of_nat (usize w)) p e) as [[[a|x| |] q] e1]; try exact I.
    - destruct H as (H1 & H2 & H3). specialize (Hg _ _ _ Hp eq_refl). destruct (bitvec_decode_all w o a) eqn:Hd; unfold ret, fail.
      + split; [lia|]. split; [lia|]. intros Ha. rewrite (H3 Ha), Hd. reflexivity.
      + split; [lia|]. cbn [told same]. split; [lia|]. intros Ha. split; [apply (agree_le _ _ Ha); lia|]. split; [apply (agree_le _ _ Ha); lia|].
        rewrite H3 by (apply (agree_le _ _ Ha); lia). rewrite Hd. eauto.
    - destruct H as (H1 & H2 & H3). split; [lia|]. split; [exact H2|]. intros Hs. destruct (H3 Hs) as (Ha & Ha2 & q' & e' & Hq).
      split; [exact Ha|]. split; [exact Ha|]. rewrite Hq. eauto. }
  destruct (t_def st) as [| | | | |pr| |]; try apply Hf. destruct pr as [| | |w| | |]; try apply Hf. destruct w; try apply Hf; apply Hw.
Qed.

(** *** Enums *)

Lemma byte_total (D : bytes) p (e : E) : read_byte (slice_buffer D) p p e =
  match nth_error D p with
  | Some x => (Ok x, p, e)
  | None => (Err (PBuffer (if (p <=? List.length D)%nat then DataTooShort p 1 else OutOfRange p (List.length D))), p, e)
  end.
Proof.
  destruct (nth_error D p) as [x|] eqn:Hn.
  - apply read_byte_ok. auto.
  - apply nth_error_None in Hn. unfold read_byte, bind, read_slice. cbn [rd slice_buffer]. unfold slice_rd.
    destruct (List.length D <? p)%nat eqn:H1; destruct (p <=? List.length D)%nat eqn:H2; try lia; [reflexivity|].
    destruct (N.of_nat (List.length D) <? N.of_nat p + 1)%N eqn:H3; [reflexivity|lia].
Qed.

(** The index byte: the variant, or an error about this byte, or there is no byte. *)
Lemma pick_hold vs p : hold (fun _ => p + 1)%nat p (pick_variant b1 vs p) (pick_variant b2 vs p).
Proof.
  intros Hp e. unfold pick_variant, bind. rewrite !byte_total. destruct (nth_error D1 p) as [i|] eqn:Hi.
  - assert (p < L1)%nat by (apply nth_error_Some; congruence). destruct (find_variant vs i) as [v|] eqn:Hv; unfold ret, fail.
    + split; [reflexivity|]. split; [lia|]. intros Ha. rewrite <- (agree_nth _ p Ha) by lia. rewrite Hi, Hv. reflexivity.
    + split; [reflexivity|]. split; [cbn [told]; lia|]. cbn [same]. intros Ha. split; [apply (agree_le _ _ Ha); lia|].
      rewrite <- (agree_nth _ p Ha) by lia. rewrite Hi, Hv. eauto.
  - apply nth_error_None in Hi. destruct (p <=? L1)%nat eqn:H1; [|lia]. split; [reflexivity|]. split; [cbn [told]; lia|]. cbn [same].
    intros [Ha Hl]. exfalso. apply not_all. split; [exact Ha|lia].
Qed.

Lemma pick_reach vs p e : (p <= L1)%nat ->
  match pick_variant b1 vs p p e with (Err x, q, _) => same x q -> agree (p + 1) | _ => True end.
Proof.
  intros Hp. unfold pick_variant, bind. rewrite byte_total. destruct (nth_error D1 p) as [i|] eqn:Hi.
  - destruct (find_variant vs i); [exact I|]. exact (fun H => H).
  - apply nth_error_None in Hi. destruct (p <=? L1)%nat eqn:H1; [|lia]. cbn [same].
    intros [Ha Hl]. exfalso. apply not_all. split; [exact Ha|lia].
Qed.

Section Step.
Variable d1 d2 : ty_input -> propagated -> M E parser_err (ext pdata).
Hypothesis Hd : forall i P p, firm p p (d1 i P) (d2 i P).

Lemma fields_loop_firm fs c : forall p, firm p p (fields_loop d1 fs c) (fields_loop d2 fs c).
Proof.
  induction fs as [|f fs IH]; intros p; cbn [fields_loop]; [apply firm_ret|].
  apply quiet_bind; [apply quiet_lift|lia|]. intros P. step; [apply Hd|]. step. apply IH.
Qed.

Lemma fields_firm fs c p : firm p p (decode_fields d1 fs c) (decode_fields d2 fs c).
Proof.
  unfold decode_fields. destruct fs as [|f [|g fs]]; try apply fields_loop_firm.
  apply quiet_bind; [apply quiet_reject|lia|]. intros _. apply fields_loop_firm.
Qed.

Lemma variant_firm vs p : firm p (p + 1) (decode_variant b1 d1 vs) (decode_variant b2 d2 vs).
Proof.
  unfold decode_variant. apply get_bind. intros Hp. revert Hp. 
  assert (H : (p <= L1)%nat -> firm p (p + 1)
    (do v <- pick_variant b1 vs p; set_pos (p + ENUM_INDEX_ENCODED_LEN)%nat ;; do fs <- decode_fields d1 (v_fields v) checker_new; ret (VData (v_name v) (collect_docs (v_docs v)) fs))
    (do v <- pick_variant b2 vs p; set_pos (p + ENUM_INDEX_ENCODED_LEN)%nat ;; do fs <- decode_fields d2 (v_fields v) checker_new; ret (VData (v_name v) (collect_docs (v_docs v)) fs))).
  { intros Hp. eapply hold_bind_at; [apply pick_hold|intros e; apply pick_reach, Hp|]. intros v Hv. cbv beta in *. split; [lia|].
    apply firm_set; [change ENUM_INDEX_ENCODED_LEN with 1%nat; lia|change ENUM_INDEX_ENCODED_LEN with 1%nat; lia|]. step. apply fields_firm. }
  intros Hp. exact (H Hp Hp).
Qed.

Lemma firm_less {A} p t (m1 m2 : M E parser_err A) : firm p t m1 m2 -> firm p p m1 m2.
Proof.
  intros H Hp e. specialize (H Hp e). destruct (m1 p e) as [[[a|x| |] q] e1]; try exact I.
  - destruct H as (H1 & H2 & H3). split; [exact H1|]. split; [lia|exact H3].
  - destruct H as (H1 & H2 & H3). split; [exact H1|]. split; [exact H2|]. intros Hs. destruct (H3 Hs) as (_ & H4 & H5). auto.
Qed.

Lemma elements_loop_firm n hu : forall p, firm p p (elements_loop d1 n hu) (elements_loop d2 n hu).
Proof.
  induction n as [|n IH]; intros p; cbn [elements_loop]; [apply firm_ret|]. step; [apply Hd|]. step. apply IH.
Qed.

Lemma elements_firm el n P p : firm p p (decode_elements_set r d1 el n P) (decode_elements_set r d2 el n P).
Proof.
  unfold decode_elements_set. apply quiet_bind; [apply quiet_reject|lia|]. intros _.
  apply quiet_bind; [apply quiet_registry, quiet_husk|lia|]. intros hu.
  destruct (n =? 0)%N; [apply firm_ret|]. step. apply elements_loop_firm.
Qed.

Lemma tuple_loop_firm ids c : forall p, firm p p (tuple_loop r d1 ids c) (tuple_loop r d2 ids c).
Proof.
  induction ids as [|i ids IH]; intros p; cbn [tuple_loop]; [apply firm_ret|].
  apply quiet_bind; [apply quiet_registry, quiet_resolve|lia|]. intros t. apply quiet_bind; [apply quiet_lift|lia|]. intros P.
  step; [apply Hd|]. step. apply IH.
Qed.

Lemma plain_firm t id P p : firm p p (decode_plain b1 r d1 t id P) (decode_plain b2 r d2 t id P).
Proof.
  unfold decode_plain. destruct (t_def t) as [fs|vs|el|len el|ids|pr|inner|store order].
  - step. apply fields_firm.
  - apply quiet_bind; [apply quiet_reject|lia|]. intros _. destruct vs; [apply firm_ret|]. step.
    eapply firm_less, variant_firm.
  - step; [apply get_compact_firm|]. apply elements_firm.
  - apply elements_firm.
  - destruct ids as [|i [|j ids]]; [| |apply quiet_bind; [apply quiet_reject|lia|]; intros _]; step; apply tuple_loop_firm.
  - step. apply primitive_firm.
  - apply quiet_bind; [apply quiet_reject|lia|]. intros _. apply quiet_bind; [apply quiet_lift|lia|]. intros c. apply Hd.
  - apply quiet_bind; [apply quiet_reject|lia|]. intros _. step. apply bit_sequence_firm.
Qed.

Lemma decode_checked_firm k t id P p : firm p p (decode_checked b1 r d1 k t id P) (decode_checked b2 r d2 k t id P).
Proof.
  destruct k; cbn [decode_checked].
  - apply plain_firm.
  - step. apply block_firm. step. apply cut_firm. destruct k; reflexivity.
  - apply quiet_bind; [apply quiet_reject|lia|]. intros _. step. apply era_firm.
  - apply quiet_bind; [apply quiet_reject|lia|]. intros _. step. unfold special_case_h256. step. apply cut_firm. reflexivity.
  - apply quiet_bind; [apply quiet_reject|lia|]. intros _. apply firm_bind; [eapply firm_less, variant_firm|]. intros. apply firm_ret.
  - step. apply per_firm.
Qed.

(** A recognised enum inside a compact is refused either way. *)
Lemma refused k t id P p e i : compact_at (checker_of P) = Some i -> (exists vs, t_def t = TVariant vs) ->
  match k with CNone | CFixed _ | CPalletSpecific _ _ _ _ => True | _ => False end ->
  forall b d, decode_checked b r d k t id P p e = (Err (PRegistry (RInternal (UnexpectedCompactInsides i))), p, e).
Proof.
  intros Hc (vs & Hv) Hk b d. destruct k; try contradiction; cbn [decode_checked].
  - unfold decode_plain. rewrite Hv. unfold bind, reject_compact_m, reject_compact. rewrite Hc. reflexivity.
  - unfold bind, parse_fixed, block_compact. rewrite Hc. reflexivity.
  - unfold bind, reject_compact_m, reject_compact. rewrite Hc. reflexivity.
Qed.

Lemma found_looks t o k n : found types t o k n ->
  (forall o2, found types t o2 k n) \/
  ((exists v vs, t_def t = TVariant (v :: vs)) /\ (k = CNone /\ n = 0%nat \/ n = 1%nat /\ match k with CFixed _ | CPalletSpecific _ _ _ _ => True | _ => False end) /\
   forall o2 k2 n2, found types t o2 k2 n2 -> match k2 with CNone | CFixed _ | CPalletSpecific _ _ _ _ => True | _ => False end).
Proof.
  assert (Hn : forall vs i v, by_index vs i = Some v -> exists a l, vs = a :: l) by (intros [|a l] i v Hv; [discriminate|eauto]).
  assert (Hm : classify t = SpMultiSig -> forall o2 k2 n2, found types t o2 k2 n2 -> match k2 with CNone | CFixed _ | CPalletSpecific _ _ _ _ => True | _ => False end).
  { intros Hc o2 k2 n2 Hf. destruct Hf; try exact I; congruence. }
  assert (Hi : forall it, classify t = SpItem it -> forall o2 k2 n2, found types t o2 k2 n2 -> match k2 with CNone | CFixed _ | CPalletSpecific _ _ _ _ => True | _ => False end).
  { intros it Hc o2 k2 n2 Hf. destruct Hf; try exact I; congruence. }
  intros H. destruct H as [Hc|k Hc|Hc|Hc|k Hc|vs i v f k Hc Ht Ho Hv Hf Hs|Hc Hno|it vs i v f inner items Hc Ht Ho Hv Hf Hl Hcl Hti|it Hc Hno].
  - left. intros. constructor; assumption.
  - left. intros. constructor; assumption.
  - left. intros. constructor; assumption.
  - left. intros. constructor; assumption.
  - left. intros. constructor; assumption.
  - right. destruct (Hn _ _ _ Hv) as (a & l & ->). split; [eauto|]. split; [auto|apply Hm, Hc].
  - destruct (t_def t) as [|[|a l]| | | | | |] eqn:Ht; try (left; intros; apply F_no_signature; [exact Hc|]; intros; congruence).
    { left. intros. apply F_no_signature; [exact Hc|]. intros vs i v f k Hvs Hi2 Hv. assert (vs = []) by congruence. subst. discriminate. }
    right. split; [eauto|]. split; [auto|apply Hm, Hc].
  - right. destruct (Hn _ _ _ Hv) as (a & l & ->). split; [eauto|]. split; [auto|apply (Hi it), Hc].
  - destruct (t_def t) as [|[|a l]| | | | | |] eqn:Ht; try (left; intros; eapply F_no_item; [exact Hc|]; intros; congruence).
    { left. intros. eapply F_no_item; [exact Hc|]. intros vs i v f inner items Hvs Hi2 Hv. assert (vs = []) by congruence. subst. discriminate. }
    right. split; [eauto|]. split; [auto|apply (Hi it), Hc].
Qed.

Lemma plain_looks t id P p v vs : compact_at (checker_of P) = None -> t_def t = TVariant (v :: vs) ->
  firm p (p + 1) (decode_plain b1 r d1 t id P) (decode_plain b2 r d2 t id P).
Proof.
  intros Hc Ht. unfold decode_plain. rewrite Ht.
  assert (Hr : forall A (f : unit -> M E parser_err A) q e, bind (reject_compact_m (checker_of P)) f q e = f tt q e).
  { intros A f q e. unfold bind, reject_compact_m, reject_compact. rewrite Hc. reflexivity. }
  assert (H : firm p (p + 1) (do x <- decode_variant b1 d1 (v :: vs); ret (Ext (DVariant x) (info_of P)))
                             (do x <- decode_variant b2 d2 (v :: vs); ret (Ext (DVariant x) (info_of P)))).
  { apply firm_bind; [apply variant_firm|]. intros. apply firm_ret. }
  intros Hp e. specialize (H Hp e). rewrite !Hr. exact H.
Qed.

Lemma agree_dec k : agree k \/ ~ agree k.
Proof.
  unfold agree. destruct (le_dec k L1); [|tauto]. destruct (le_dec k L2); [|tauto].
  destruct (list_eq_dec N.eq_dec (firstn k D1) (firstn k D2)); tauto.
Qed.

Lemma found_used t o k n : found types t o k n -> n = 0%nat \/ (n = 1%nat /\ exists i, o = Some i).
Proof. destruct 1; eauto. Qed.

Lemma checked_firm t id P p :
  firm p p (do k <- checked_from_type b1 r t; decode_checked b1 r d1 k t id P)
           (do k <- checked_from_type b2 r t; decode_checked b2 r d2 k t id P).
Proof.
  intros Hp e. unfold bind. destruct (checked_exact types D1 t p e) as (k & n & Hf & ->).
  destruct (checked_exact types D2 t p e) as (k2 & n2 & Hf2 & ->).
  assert (Hl : (p + n <= L1)%nat).
  { destruct (found_used _ _ _ _ Hf) as [-> | [-> [i Hi] ] ]; [lia|]. assert (p < L1)%nat by (apply nth_error_Some; congruence). lia. }
  assert (Hall : k2 = k -> n2 = n ->
     match decode_checked b1 r d1 k t id P (p + n)%nat e with
     | (Ok a, q, e1) => (p <= q <= L1)%nat /\ (p <= q)%nat /\ (agree q -> decode_checked b2 r d2 k2 t id P (p + n2)%nat e = (Ok a, q, e1))
     | (Err x, q, e1) => (p <= q <= L1)%nat /\ told p x /\ (same x q -> agree p /\ agree p /\ exists q' e', decode_checked b2 r d2 k2 t id P (p + n2)%nat e = (Err x, q', e'))
     | _ => True
     end).
  { intros -> ->. pose proof (decode_checked_firm k t id P (p + n)%nat Hl e) as H.
    destruct (decode_checked b1 r d1 k t id P (p + n)%nat e) as [[[a|x| |] q] e1]; try exact I.
    - destruct H as (H1 & H2 & H3). split; [lia|]. split; [lia|exact H3].
    - destruct H as (H1 & H2 & H3). split; [lia|]. split; [apply (told_le _ _ _ H2); lia|]. intros Hs. destruct (H3 Hs) as (Ha & _ & Hq).
      split; [apply (agree_le _ _ Ha); lia|]. split; [apply (agree_le _ _ Ha); lia|exact Hq]. }
  destruct (found_looks _ _ _ _ Hf) as [Hany|((v & vs & Ht) & Hk & Hk2)].
  { destruct (found_det types _ _ _ _ _ _ (Hany _) Hf2) as [<- <-]. apply Hall; reflexivity. }
  destruct (compact_at (checker_of P)) as [i|] eqn:Hc.
  { assert (Hv : exists vs, t_def t = TVariant vs) by eauto.
    rewrite (refused k t id P (p + n)%nat e i Hc Hv (Hk2 _ _ _ Hf)).
    split; [lia|]. split; [exact I|]. cbn [same]. intros Ha. split; [apply (agree_le _ _ Ha); lia|]. split; [apply (agree_le _ _ Ha); lia|].
    rewrite (refused k2 t id P (p + n2)%nat e i Hc Hv (Hk2 _ _ _ Hf2)). eauto. }
  destruct (agree_dec (p + 1)) as [Ha|Ha].
  { rewrite <- (agree_nth _ p Ha) in Hf2 by lia. destruct (found_det types _ _ _ _ _ _ Hf Hf2) as [<- <-]. apply Hall; reflexivity. }
  assert (Hfirm : firm (p + n) (p + 1) (decode_checked b1 r d1 k t id P) (decode_checked b2 r d2 k t id P)).
  { destruct Hk as [ [-> ->] | [-> _] ]; [|apply decode_checked_firm]. rewrite Nat.add_0_r. exact (plain_looks t id P p v vs Hc Ht). }
  specialize (Hfirm Hl e). destruct (decode_checked b1 r d1 k t id P (p + n)%nat e) as [[[a|x| |] q] e1]; try exact I.
  - destruct Hfirm as (H1 & H2 & _). split; [lia|]. split; [lia|]. intros Hq. exfalso. apply Ha, (agree_le _ _ Hq), H2.
  - destruct Hfirm as (H1 & H2 & H3). split; [lia|]. split; [apply (told_le _ _ _ H2); lia|]. intros Hs. exfalso. apply Ha. exact (proj1 (H3 Hs)).
Qed.

Lemma body_firm i P p : firm p p (decode_body b1 r d1 i P) (decode_body b2 r d2 i P).
Proof.
  unfold decode_body. apply quiet_bind; [|lia|].
  - destruct i as [t id|id]; [intros q e; cbn; auto|]. intros q e. pose proof (resolve_total types id q e) as H.
    unfold bind, map_err. destruct (lookup types id); rewrite H; cbn; eauto.
  - intros [t id]. cbv zeta. apply checked_firm.
Qed.
End Step.

Lemma decode_firm fuel : forall i P p, firm p p (decode b1 r fuel i P) (decode b2 r fuel i P).
Proof. induction fuel as [|fuel IH]; intros i P p; cbn [decode]; [intros Hp e; exact I|]. apply body_firm, IH. Qed.
End Firm.
