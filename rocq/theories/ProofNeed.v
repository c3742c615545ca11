(** Only the bytes that are consumed are needed (C54): two runs, the second in memory. *)
From Coq Require Import Lia ZifyBool ZifyNat ZifyN.
From Verif Require Import Base Compact Types Indicators Decode.
Local Open Scope list_scope.

Section Need.
Context {E1 E2 : Type}.
Variable b1 : buffer E1.
Variable b2 : buffer E2.
Variable r1 : registry E1.
Variable r2 : registry E2.
Variable G : nat -> Prop.
Hypothesis Hlen : total_len b1 = total_len b2.
Hypothesis Hbound : reg_bound r1 = reg_bound r2.
Hypothesis Hin : forall p n e1 e2 l e2', rd b2 p n e2 = (inl l, e2') -> (forall i, (p <= i < p + N.to_nat n)%nat -> G i) ->
  exists e1', rd b1 p n e1 = (inl l, e1').
Hypothesis Hout : forall p n e1 e2 l e1', rd b1 p n e1 = (inl l, e1') -> exists e2', rd b2 p n e2 = (inl l, e2').
Hypothesis Hres : forall id e1 e2, fst (resolve r1 id e1) = fst (resolve r2 id e2).

Definition all_good (p q : nat) : Prop := forall i, (p <= i < q)%nat -> G i.

(** If the second run succeeds it ends at [t] or later, and the first one does the same if
    the bytes consumed are good. *)
Definition need {X A} (p t : nat) (m1 : M E1 X A) (m2 : M E2 X A) : Prop :=
  forall e1 e2 a q e2', m2 p e2 = (Ok a, q, e2') ->
  (t <= q)%nat /\ (p <= q)%nat /\ (all_good p q -> exists e1', m1 p e1 = (Ok a, q, e1')).

(** The second run succeeds without moving; the first does if the bytes up to [T] are good. *)
Definition hold {X A} (T : A -> nat) (p : nat) (m1 : M E1 X A) (m2 : M E2 X A) : Prop :=
  forall e1 e2 a q e2', m2 p e2 = (Ok a, q, e2') ->
  q = p /\ (all_good p (T a) -> exists e1', m1 p e1 = (Ok a, p, e1')).

Lemma bind_ok {E X A B} (m : M E X A) f p e (a : B) q e' : bind m f p e = (Ok a, q, e') ->
  exists x s e1, m p e = (Ok x, s, e1) /\ f x s e1 = (Ok a, q, e').
Proof. unfold bind. destruct (m p e) as [[[x|x| |] s] e1]; try discriminate. eauto. Qed.

Lemma need_bind {X A B} p t (m1 : M E1 X A) (m2 : M E2 X A) (f1 : A -> M E1 X B) f2 :
  need p p m1 m2 -> (forall a s, (p <= s)%nat -> need s t (f1 a) (f2 a)) -> need p t (bind m1 f1) (bind m2 f2).
Proof.
  intros Hm Hf e1 e2 a q e2' H. apply bind_ok in H. destruct H as (x & s & e3 & H1 & H2).
  destruct (Hm e1 _ _ _ _ H1) as (_ & L1 & S1). destruct (Hf x s L1 e1 _ _ _ _ H2) as (L2 & L3 & _).
  split; [exact L2|]. split; [lia|]. intros Hg. destruct S1 as (e4 & S1); [intros i Hi; apply Hg; lia|].
  destruct (Hf x s L1 e4 _ _ _ _ H2) as (_ & _ & S2). destruct S2 as (e5 & S2); [intros i Hi; apply Hg; lia|].
  exists e5. unfold bind. rewrite S1. exact S2.
Qed.

Lemma hold_bind {X A B} (T : A -> nat) p t (m1 : M E1 X A) (m2 : M E2 X A) (f1 : A -> M E1 X B) f2 :
  hold T p m1 m2 -> (forall a, need p (Nat.max t (T a)) (f1 a) (f2 a)) -> need p t (bind m1 f1) (bind m2 f2).
Proof.
  intros Hm Hf e1 e2 a q e2' H. apply bind_ok in H. destruct H as (x & s & e3 & H1 & H2).
  destruct (Hm e1 _ _ _ _ H1) as (-> & S1). destruct (Hf x e1 _ _ _ _ H2) as (L2 & L3 & _).
  split; [lia|]. split; [lia|]. intros Hg. destruct S1 as (e4 & S1); [intros i Hi; apply Hg; lia|].
  destruct (Hf x e4 _ _ _ _ H2) as (_ & _ & S2). destruct S2 as (e5 & S2); [exact Hg|].
  exists e5. unfold bind. rewrite S1. exact S2.
Qed.

Lemma hold_bind2 {X A B} (T : A -> nat) (T2 : B -> nat) p (m1 : M E1 X A) (m2 : M E2 X A) (f1 : A -> M E1 X B) f2 :
  hold T p m1 m2 -> (forall a, hold T2 p (f1 a) (f2 a) /\
    forall e2 b q e', f2 a p e2 = (Ok b, q, e') -> (T a <= T2 b)%nat) -> hold T2 p (bind m1 f1) (bind m2 f2).
Proof.
  intros Hm Hf e1 e2 a q e2' H. apply bind_ok in H. destruct H as (x & s & e3 & H1 & H2).
  destruct (Hm e1 _ _ _ _ H1) as (-> & S1). destruct (Hf x) as (Hh & Ht). pose proof (Ht _ _ _ _ H2) as L.
  destruct (Hh e1 _ _ _ _ H2) as (-> & _). split; [reflexivity|]. intros Hg.
  destruct S1 as (e4 & S1); [intros i Hi; apply Hg; lia|]. destruct (Hh e4 _ _ _ _ H2) as (_ & S2).
  destruct (S2 Hg) as (e5 & S3). exists e5. unfold bind. rewrite S1. exact S3.
Qed.

Lemma need_ret {X A} p t (a : A) : (t <= p)%nat -> @need X A p t (ret a) (ret a).
Proof. intros Ht e1 e2 x q e' H. injection H as <- <- <-. repeat split; auto. intros _. exists e1. reflexivity. Qed.

Lemma need_fail {X A} p t (x : X) : @need X A p t (fail x) (fail x).
Proof. intros e1 e2 a q e' H. discriminate. Qed.

Lemma need_panic {X A} p t : @need X A p t panic panic.
Proof. intros e1 e2 a q e' H. discriminate. Qed.

Lemma need_weaken {X A} p t t2 (m1 : M E1 X A) m2 : need p t m1 m2 -> (t2 <= t)%nat -> need p t2 m1 m2.
Proof. intros H Ht e1 e2 a q e' Hx. destruct (H e1 _ _ _ _ Hx) as (L & R). split; [lia|exact R]. Qed.

Lemma need_set {X A} p q t (m1 : M E1 X A) m2 : (p <= q)%nat -> need q t m1 m2 ->
  need p t (set_pos q ;; m1) (set_pos q ;; m2).
Proof.
  intros Hq H e1 e2 a s e' Hx. unfold bind, set_pos in *. destruct (H e1 _ _ _ _ Hx) as (L & L2 & S). split; [lia|].
  split; [lia|]. intros Hg. apply S. intros i Hi. apply Hg. lia.
Qed.

(** What follows a jump forward ends there or later. *)
Lemma need_stay {X A} p t (m1 : M E1 X A) m2 : need p p m1 m2 -> (t <= p)%nat -> need p t m1 m2.
Proof. apply need_weaken. Qed.

Lemma need_map_err {X Y A} (g : X -> Y) p t (m1 : M E1 X A) m2 : need p t m1 m2 -> need p t (map_err g m1) (map_err g m2).
Proof.
  intros H e1 e2 a q e' Hx. unfold map_err in *. destruct (m2 p e2) as [[[x|x| |] s] e3] eqn:Hm; try discriminate.
  injection Hx as -> -> ->. destruct (H e1 _ _ _ _ Hm) as (L & L2 & S). repeat split; auto. intros Hg.
  destruct (S Hg) as (e4 & ->). eauto.
Qed.

Lemma hold_map_err {X Y A} (g : X -> Y) T p (m1 : M E1 X A) m2 : hold T p m1 m2 -> hold T p (map_err g m1) (map_err g m2).
Proof.
  intros H e1 e2 a q e' Hx. unfold map_err in *. destruct (m2 p e2) as [[[x|x| |] s] e3] eqn:Hm; try discriminate.
  injection Hx as -> -> ->. destruct (H e1 _ _ _ _ Hm) as (L & S). split; auto. intros Hg.
  destruct (S Hg) as (e4 & ->). eauto.
Qed.

Lemma hold_get {X} p : @hold X nat (fun a => a) p get_pos get_pos.
Proof. intros e1 e2 a q e' H. injection H as <- <- <-. split; [reflexivity|]. intros _. exists e1. reflexivity. Qed.

Lemma need_get {X B} p t (f1 : nat -> M E1 X B) f2 : need p t (f1 p) (f2 p) -> need p t (bind get_pos f1) (bind get_pos f2).
Proof. intros H e1 e2 a q e' Hx. exact (H e1 e2 a q e' Hx). Qed.

Lemma hold_ret {X A} T p (a : A) : @hold X A T p (ret a) (ret a).
Proof. intros e1 e2 x q e' H. injection H as <- <- <-. split; [reflexivity|]. intros _. exists e1. reflexivity. Qed.

Lemma hold_fail {X A} T p (x : X) : @hold X A T p (fail x) (fail x).
Proof. intros e1 e2 a q e' H. discriminate. Qed.

(** *** Computations that do not touch the data *)
Definition agree {X A} (m1 : M E1 X A) (m2 : M E2 X A) : Prop :=
  forall p e1 e2, fst (m1 p e1) = fst (m2 p e2) /\ snd (fst (m2 p e2)) = p.

Lemma agree_hold {X A} p (m1 : M E1 X A) m2 : agree m1 m2 -> hold (fun _ => p) p m1 m2.
Proof.
  intros H e1 e2 a q e' Hx. destruct (H p e1 e2) as [H1 H2]. rewrite Hx in H1, H2. cbn in H2. subst q. split; [reflexivity|].
  intros _. destruct (m1 p e1) as [y e3]. cbn in H1. subst y. eauto.
Qed.

Lemma agree_bind {X A B} (m1 : M E1 X A) m2 (f1 : A -> M E1 X B) f2 : agree m1 m2 -> (forall a, agree (f1 a) (f2 a)) ->
  agree (bind m1 f1) (bind m2 f2).
Proof.
  intros Hm Hf p e1 e2. destruct (Hm p e1 e2) as [H1 H2]. unfold bind.
  destruct (m1 p e1) as [[o1 q1] e3], (m2 p e2) as [[o2 q2] e4]. cbn in H1, H2. injection H1 as -> ->. subst q2.
  destruct o2; cbn; auto. apply Hf.
Qed.

Lemma agree_ret {X A} (a : A) : @agree X A (ret a) (ret a).
Proof. intros p e1 e2. split; reflexivity. Qed.
Lemma agree_fail {X A} (x : X) : @agree X A (fail x) (fail x).
Proof. intros p e1 e2. split; reflexivity. Qed.
Lemma agree_fuel {X A} : @agree X A out_of_fuel out_of_fuel.
Proof. intros p e1 e2. split; reflexivity. Qed.
Lemma agree_lift {X A} (x : A + X) : agree (lift x) (lift x).
Proof. destruct x; intros p e1 e2; split; reflexivity. Qed.
Lemma agree_map_err {X Y A} (g : X -> Y) (m1 : M E1 X A) m2 : agree m1 m2 -> agree (map_err g m1) (map_err g m2).
Proof.
  intros H p e1 e2. destruct (H p e1 e2) as [H1 H2]. unfold map_err.
  destruct (m1 p e1) as [[o1 q1] e3], (m2 p e2) as [[o2 q2] e4]. cbn in H1, H2. injection H1 as -> ->. subst q2.
  destruct o2; cbn; auto.
Qed.
Lemma agree_catch {X Y A} (m1 : M E1 X A) m2 : agree m1 m2 -> agree (@catch E1 X Y A m1) (catch m2).
Proof.
  intros H p e1 e2. destruct (H p e1 e2) as [H1 H2]. unfold catch.
  destruct (m1 p e1) as [[o1 q1] e3], (m2 p e2) as [[o2 q2] e4]. cbn in H1, H2. injection H1 as -> ->. subst q2.
  destruct o2; cbn; auto.
Qed.

Lemma agree_resolve id : agree (resolve_ty r1 id) (resolve_ty r2 id).
Proof.
  intros p e1 e2. unfold resolve_ty. pose proof (Hres id e1 e2) as H.
  destruct (resolve r1 id e1) as [o1 e3], (resolve r2 id e2) as [o2 e4]. cbn in H. subst o1. destruct o2; split; reflexivity.
Qed.

Lemma agree_husk_loop fuel : forall t id c acc, agree (husk_loop r1 fuel t id c acc) (husk_loop r2 fuel t id c acc).
Proof.
  induction fuel as [|fuel IH]; intros t id c acc; cbn [husk_loop]; [apply agree_fuel|]. cbv zeta.
  destruct (hinted_from_type t); try apply agree_ret.
  destruct (t_def t) as [fs| | | | | |inner| ]; try apply agree_ret.
  - destruct fs as [|f [|g fs]]; try apply agree_ret.
    apply agree_bind; [apply agree_map_err, agree_lift|]. intros c1. apply agree_bind; [apply agree_resolve|]. intros t1. apply IH.
  - apply agree_bind; [apply agree_map_err, agree_lift|]. intros u. apply agree_bind; [apply agree_map_err, agree_lift|]. intros c1.
    apply agree_bind; [apply agree_resolve|]. intros t1. apply IH.
Qed.

Lemma agree_husk id c : agree (husk_type r1 id c) (husk_type r2 id c).
Proof.
  unfold husk_type, husk_fuel. rewrite Hbound. apply agree_bind; [apply agree_map_err, agree_lift|]. intros c1. cbv zeta.
  apply agree_bind; [apply agree_resolve|]. intros t. apply agree_husk_loop.
Qed.

Lemma agree_bit_order order id : agree (find_bit_order_ty r1 order id) (find_bit_order_ty r2 order id).
Proof.
  unfold find_bit_order_ty. apply agree_bind; [apply agree_resolve|]. intros t.
  destruct (t_def t); try apply agree_fail. destruct (path_ident (t_path t)); [|apply agree_fail].
  destruct (String.eqb _ _); [apply agree_ret|]. destruct (String.eqb _ _); [apply agree_ret|apply agree_fail].
Qed.

Lemma agree_signature f : agree (signature_from_field r1 f) (signature_from_field r2 f).
Proof.
  unfold signature_from_field. apply agree_bind; [apply agree_catch, agree_husk|]. intros [hu|x]; [|apply agree_ret].
  destruct (t_def (hu_ty hu)); try apply agree_ret.
  apply agree_bind; [apply agree_catch, agree_resolve|]. intros [t|x]; [|apply agree_ret].
  destruct (t_def t) as [| | | | |pr| |]; try apply agree_ret. destruct pr as [| | |w| | | ]; try apply agree_ret.
  destruct w; try apply agree_ret. destruct (f_type_name f); [|apply agree_ret].
  repeat match goal with |- context [if ?c then _ else _] => destruct c end; apply agree_ret.
Qed.

Lemma need_agree {X A B} p t (m1 : M E1 X A) m2 (f1 : A -> M E1 X B) f2 : agree m1 m2 -> (t <= p)%nat ->
  (forall a, need p p (f1 a) (f2 a)) -> need p t (bind m1 f1) (bind m2 f2).
Proof.
  intros Hm Ht Hf. eapply hold_bind; [apply agree_hold, Hm|]. intros a. eapply need_weaken; [apply Hf|lia].
Qed.

(** *** Reads *)

Lemma slice_hold s n p : (p <= s)%nat -> hold (fun _ => s + N.to_nat n)%nat p (read_slice b1 s n) (read_slice b2 s n).
Proof.
  intros Hs e1 e2 a q e' H. unfold read_slice in *. destruct (rd b2 s n e2) as [[l|x] e3] eqn:Hr; [|discriminate].
  injection H as <- <- <-. split; [reflexivity|]. intros Hg.
  destruct (Hin _ _ e1 _ _ _ Hr) as (e4 & ->); [|eauto]. intros i Hi. apply Hg. lia.
Qed.

Lemma byte_hold p : hold (fun _ => p + 1)%nat p (read_byte b1 p) (read_byte b2 p).
Proof.
  unfold read_byte. eapply hold_bind2; [apply slice_hold; lia|]. intros l. split.
  - destruct l as [|x [|y l]]; [|apply hold_ret|]; intros e1 e2 a q e' H; discriminate.
  - intros. cbn. lia.
Qed.

Definition upto (o : option (N * nat)) : nat := match o with Some (_, n) => n | None => 0%nat end.

Lemma find_loop_hold w p k : forall i e1 e2 a q e2', find_loop w b2 p k i p e2 = (Ok a, q, e2') ->
  q = p /\ match a with
           | Some (_, n) => (p + i < n)%nat /\ (all_good p n -> exists e1', find_loop w b1 p k i p e1 = (Ok a, p, e1'))
           | None => True
           end.
Proof.
  induction k as [|k IH]; intros i e1 e2 a q e2' H; cbn [find_loop] in *.
  - injection H as <- <- <-. auto.
  - destruct (MAX_COMPACT_LEN <? i)%nat; [injection H as <- <- <-; auto|].
    apply bind_ok in H. destruct H as (l & s & e3 & H1 & H2).
    destruct (slice_hold p (N.of_nat (i + 1)) p (le_n _) e1 _ _ _ _ H1) as (-> & S).
    destruct (compact_decode w l) as [c|] eqn:Hc.
    + injection H2 as <- <- <-. split; [reflexivity|]. split; [lia|]. intros Hg.
      destruct S as (e4 & S); [intros j Hj; apply Hg; lia|]. exists e4. unfold bind. rewrite S, Hc. reflexivity.
    + destruct (IH _ e1 _ _ _ _ H2) as (-> & H3). split; [reflexivity|]. destruct a as [[x n]|]; [|exact I].
      destruct H3 as [L _]. split; [lia|]. intros Hg. destruct S as (e4 & S); [intros j Hj; apply Hg; lia|].
      destruct (IH _ e4 _ _ _ _ H2) as (_ & _ & H4). destruct (H4 Hg) as (e5 & H5).
      exists e5. unfold bind. rewrite S, Hc. exact H5.
Qed.

Lemma find_compact_hold w p e1 e2 x q e2' : find_compact w b2 p p e2 = (Ok x, q, e2') ->
  q = p /\ (p < snd x)%nat /\ (all_good p (snd x) -> exists e1', find_compact w b1 p p e1 = (Ok x, p, e1')).
Proof.
  unfold find_compact. rewrite Hlen. destruct (total_len b2 <? p)%nat; [discriminate|]. intros H.
  apply bind_ok in H. destruct H as (o & s & e3 & H1 & H2). destruct o as [[c n]|]; [|discriminate].
  injection H2 as <- <- <-. destruct (find_loop_hold _ _ _ _ e1 _ _ _ _ H1) as (-> & L & S). cbn [snd].
  split; [reflexivity|]. split; [lia|]. intros Hg. destruct (S Hg) as (e4 & S1). exists e4. unfold bind. rewrite S1. reflexivity.
Qed.

Lemma find_hold w p : hold snd p (find_compact w b1 p) (find_compact w b2 p).
Proof. intros e1 e2 a q e' H. destruct (find_compact_hold w p e1 e2 a q e' H) as (L1 & _ & S). auto. Qed.

(** A continuation after a compact knows that it is not empty. *)
Lemma find_bind {B} w p t (f1 : N * nat -> M E1 parser_err B) f2 :
  (forall x, (p < snd x)%nat -> need p (Nat.max t (snd x)) (f1 x) (f2 x)) ->
  need p t (bind (find_compact w b1 p) f1) (bind (find_compact w b2 p) f2).
Proof.
  intros Hf e1 e2 a q e2' H. apply bind_ok in H. destruct H as (x & s & e3 & H1 & H2).
  destruct (find_compact_hold _ _ e1 _ _ _ _ H1) as (-> & L & S1). destruct (Hf x L e1 _ _ _ _ H2) as (L2 & L3 & _).
  split; [lia|]. split; [lia|]. intros Hg. destruct S1 as (e4 & S1); [intros i Hi; apply Hg; lia|].
  destruct (Hf x L e4 _ _ _ _ H2) as (_ & _ & S2). destruct (S2 Hg) as (e5 & S3).
  exists e5. unfold bind. rewrite S1. exact S3.
Qed.

Lemma get_compact_need w p : need p p (get_compact w b1) (get_compact w b2).
Proof.
  unfold get_compact. apply need_get. apply find_bind. intros x Hx. apply need_set; [lia|]. apply need_ret. lia.
Qed.

Lemma cut_need {A} n name (f : bytes -> option A) p : need p p (cut_and_decode b1 n name f) (cut_and_decode b2 n name f).
Proof.
  unfold cut_and_decode. apply need_get. eapply hold_bind with (T := fun _ => (p + N.to_nat n)%nat).
  - unfold read_exact. intros e1 e2 a q e' H. 
    pose proof (hold_bind2 (fun _ => p + N.to_nat n)%nat (fun _ => p + N.to_nat n)%nat p (read_slice b1 p n) (read_slice b2 p n)
      (fun l => if (N.of_nat (List.length l) =? n)%N then ret l else panic)
      (fun l => if (N.of_nat (List.length l) =? n)%N then ret l else panic) (slice_hold p n p (le_n _))) as Hh.
    refine (Hh _ e1 e2 a q e' H). intros l. split; [|lia]. destruct (_ =? _)%N; [apply hold_ret|]. intros ? ? ? ? ? Hx. discriminate.
  - intros l. destruct (f l) as [x|]; [|apply need_fail]. unfold shift_pos.
    intros e1 e2 a q e' H. unfold bind, get_pos, set_pos, ret in H. injection H as <- <- <-.
    split; [lia|]. split; [lia|]. intros _. exists e1. reflexivity.
Qed.

Lemma agree_reject c : agree (reject_compact_m c) (reject_compact_m c).
Proof. apply agree_map_err, agree_lift. Qed.

Lemma block_need {A} c p (m1 : M E1 parser_err A) m2 : need p p m1 m2 -> need p p (block_compact c m1) (block_compact c m2).
Proof. unfold block_compact. destruct (compact_at c); [intros; apply need_fail|auto]. Qed.

Ltac step := eapply need_bind; [|intros; try (apply need_ret; lia)].
Ltac stay := apply need_agree; [first [apply agree_reject|apply agree_map_err; first [apply agree_lift|apply agree_resolve|apply agree_husk|apply agree_bit_order]]|lia|intros ?].

Lemma era_need p : need p p (special_case_era b1) (special_case_era b2).
Proof.
  unfold special_case_era. apply need_get. eapply hold_bind; [apply slice_hold; lia|]. intros l1. destruct (era_decode_all l1).
  - apply need_set; [lia|]. apply need_ret. change (N.to_nat 1) with 1%nat. lia.
  - eapply hold_bind; [apply slice_hold; lia|]. intros l2. destruct (era_decode_all l2); [|apply need_fail].
    apply need_set; [lia|]. apply need_ret. change (N.to_nat 1) with 1%nat. change (N.to_nat 2) with 2%nat. lia.
Qed.

Lemma str_need h p : need p p (decode_str b1 h) (decode_str b2 h).
Proof.
  unfold decode_str. apply need_get. apply find_bind. intros [n s] Hs. cbn [snd] in *.
  eapply hold_bind; [apply slice_hold; lia|]. intros l. destruct (utf8_valid l); [|apply need_fail].
  apply need_set; [lia|]. apply need_ret. lia.
Qed.

Lemma uint_need w c p : need p p (parse_uint b1 w c) (parse_uint b2 w c).
Proof. unfold parse_uint. step. destruct (compact_at c); [apply get_compact_need|apply cut_need]. Qed.

Lemma primitive_need x c p : need p p (decode_primitive b1 x c) (decode_primitive b2 x c).
Proof.
  destruct x; cbn [decode_primitive]; try (apply block_need; step; apply cut_need).
  - stay. apply str_need.
  - apply uint_need.
Qed.

Lemma per_need k c p : need p p (parse_per b1 k c) (parse_per b2 k c).
Proof. unfold parse_per. step. destruct (compact_at c); [step; apply get_compact_need|apply cut_need]. Qed.

Lemma bits_need n p : need p p (into_bitvec_decode b1 n) (into_bitvec_decode b2 n).
Proof.
  unfold into_bitvec_decode. apply need_get. unfold bitvec_positions.
  assert (Hassoc : forall E (b : buffer E) p0 e, (bind (bind (find_compact U32 b p) (fun found =>
      let '(bit_length, data_start) := found in
      ret (data_start, bit_length, (N.of_nat (data_start - p) + bitvec_elements n bit_length * n)%N)))
      (fun x => let '(_, _, minimal_length) := x in
        do l <- read_slice b p minimal_length; set_pos (p + N.to_nat minimal_length)%nat ;; ret l)) p0 e =
    bind (find_compact U32 b p) (fun found => let '(bit_length, data_start) := found in
      let minimal_length := (N.of_nat (data_start - p) + bitvec_elements n bit_length * n)%N in
      do l <- read_slice b p minimal_length; set_pos (p + N.to_nat minimal_length)%nat ;; ret l) p0 e).
  { intros. unfold bind. destruct (find_compact U32 b p p0 e) as [[[[x y]|x| |] s] e3]; reflexivity. }
  intros e1 e2 a q e' H. rewrite Hassoc in H.
  assert (Hn : need p p (bind (find_compact U32 b1 p) (fun found => let '(bit_length, data_start) := found in
      let minimal_length := (N.of_nat (data_start - p) + bitvec_elements n bit_length * n)%N in
      do l <- read_slice b1 p minimal_length; set_pos (p + N.to_nat minimal_length)%nat ;; ret l))
    (bind (find_compact U32 b2 p) (fun found => let '(bit_length, data_start) := found in
      let minimal_length := (N.of_nat (data_start - p) + bitvec_elements n bit_length * n)%N in
      do l <- read_slice b2 p minimal_length; set_pos (p + N.to_nat minimal_length)%nat ;; ret l))).
  { apply find_bind. intros [bl ds] Hd. cbn [snd] in *. cbv zeta.
    eapply hold_bind; [apply slice_hold; lia|]. intros l. apply need_set; [lia|]. apply need_ret. lia. }
  destruct (Hn e1 _ _ _ _ H) as (L1 & L2 & S). split; [lia|]. split; [lia|]. intros Hg. destruct (S Hg) as (e4 & S1).
  exists e4. rewrite Hassoc. exact S1.
Qed.

Lemma bit_sequence_need store order id p : need p p (decode_bit_sequence b1 r1 store order id) (decode_bit_sequence b2 r2 store order id).
Proof.
  unfold decode_bit_sequence. apply need_get. stay. stay.
  match goal with t : ty |- _ => destruct (t_def t) as [| | | | |pr| |] end; try apply need_fail.
  destruct pr as [| | |w| | | ]; try apply need_fail.
  match goal with o : bit_order |- _ =>
  assert (Hn : need p p (do l <- into_bitvec_decode b1 (N.of_nat (usize w));
      match bitvec_decode_all w o l with
      | Some bits => ret (DBitVec w o bits)
      | None => fail (TypeFailure p (bitvec_name w o)) end)
     (do l <- into_bitvec_decode b2 (N.of_nat (usize w));
      match bitvec_decode_all w o l with
      | Some bits => ret (DBitVec w o bits)
      | None => fail (TypeFailure p (bitvec_name w o)) end)) end.
  { eapply need_bind; [apply bits_need|]. intros l s Hs. destruct (bitvec_decode_all _ _ l); [apply need_ret; lia|apply need_fail]. }
  destruct w; first [apply need_fail|exact Hn].
Qed.

Lemma pick_hold vs p : hold (fun _ => p + 1)%nat p (pick_variant b1 vs p) (pick_variant b2 vs p).
Proof.
  unfold pick_variant. eapply hold_bind2; [apply byte_hold|]. intros x. split; [|lia].
  destruct (find_variant vs x); [apply hold_ret|apply hold_fail].
Qed.

(** *** Recognised types *)

(** The index byte is looked at. *)
Definition looks (t : ty) : bool :=
  match hinted_from_type t with
  | HtMultiSignature | HtPalletSpecific _ => match t_def t with TVariant (_ :: _) => true | _ => false end
  | _ => false
  end.

Lemma pick_catch vs p e1 e2 v q e2' : @catch E2 _ parser_err _ (pick_variant b2 vs p) p e2 = (Ok v, q, e2') ->
  q = p /\ ((vs <> [] -> G p) -> exists e1' v1, @catch E1 _ parser_err _ (pick_variant b1 vs p) p e1 = (Ok v1, p, e1') /\
    match v with inl x => v1 = inl x | inr _ => exists y, v1 = inr y end).
Proof.
  intros H. unfold catch, pick_variant, read_byte, bind, read_slice in *.
  destruct (rd b2 p 1 e2) as [[l|x] e3] eqn:Hr.
  - destruct l as [|y [|z l]]; [discriminate| |discriminate].
    unfold ret, fail in *. split. { destruct (find_variant vs y); injection H as <- <- <-; reflexivity. }
    intros Hg. destruct vs as [|v0 vs].
    + cbn [find_variant find] in *. injection H as <- <- <-. destruct (rd b1 p 1 e1) as [[l|x] e4] eqn:Hr1; [|eexists _, _; split; [reflexivity|eauto]].
      destruct (Hout _ _ _ e2 _ _ Hr1) as (e5 & H5). rewrite Hr in H5. injection H5 as <- <-. eexists _, _; split; [reflexivity|eauto].
    + destruct (Hin _ _ e1 _ _ _ Hr) as (e4 & ->). { intros i Hi. change (N.to_nat 1) with 1%nat in Hi. replace i with p by lia. apply Hg. discriminate. }
      unfold ret, fail in *. destruct (find_variant (v0 :: vs) y); injection H as <- <- <-; eexists _, _; split; try reflexivity; eauto.
  - injection H as <- <- <-. split; [reflexivity|]. intros _. destruct (rd b1 p 1 e1) as [[l|y] e4] eqn:Hr1.
    + destruct (Hout _ _ _ e2 _ _ Hr1) as (e5 & H5). congruence.
    + eexists _, _; split; [reflexivity|eauto].
Qed.

Section Look.
Variable p : nat.
Variable GP : Prop.

Definition look (m1 : M E1 parser_err checked) (m2 : M E2 parser_err checked) : Prop :=
  forall e1 e2 k q e2', m2 p e2 = (Ok k, q, e2') ->
  (q = (p + 1)%nat \/ q = p /\ k = CNone) /\ (GP -> exists e1', m1 p e1 = (Ok k, q, e1')).

Lemma look_bind {A} (R : A -> A -> Prop) (m1 : M E1 parser_err A) (m2 : M E2 parser_err A) f1 f2 :
  (forall e1 e2 v q e2', m2 p e2 = (Ok v, q, e2') -> q = p /\ (GP -> exists e1' v1, m1 p e1 = (Ok v1, p, e1') /\ R v1 v)) ->
  (exists v, R v v) -> (forall v1 v, R v1 v -> look (f1 v1) (f2 v)) -> (forall v, R v v) -> look (bind m1 f1) (bind m2 f2).
Proof.
  intros Hm _ Hf Hrr e1 e2 k q e2' H. apply bind_ok in H. destruct H as (x & s & e3 & H1 & H2).
  destruct (Hm e1 _ _ _ _ H1) as (-> & S). split.
  - exact (proj1 (Hf x x (Hrr x) e1 _ _ _ _ H2)).
  - intros Hg. destruct (S Hg) as (e4 & v1 & S1 & Hv). destruct (proj2 (Hf v1 x Hv e4 _ _ _ _ H2) Hg) as (e5 & S2).
    exists e5. unfold bind. rewrite S1. exact S2.
Qed.

Lemma look_agree {A} (m1 : M E1 parser_err A) (m2 : M E2 parser_err A) f1 f2 : agree m1 m2 ->
  (forall v, look (f1 v) (f2 v)) -> look (bind m1 f1) (bind m2 f2).
Proof.
  intros Hm Hf e1 e2 k q e2' H. apply bind_ok in H. destruct H as (x & s & e3 & H1 & H2).
  destruct (agree_hold p m1 m2 Hm e1 _ _ _ _ H1) as (-> & S). split.
  - exact (proj1 (Hf x e1 _ _ _ _ H2)).
  - intros Hg. destruct S as (e4 & S1); [intros i Hi; lia|]. destruct (proj2 (Hf x e4 _ _ _ _ H2) Hg) as (e5 & S2).
    exists e5. unfold bind. rewrite S1. exact S2.
Qed.

Lemma look_none : look (ret CNone) (ret CNone).
Proof. intros e1 e2 k q e' H. injection H as <- <- <-. split; [auto|]. intros _. exists e1. reflexivity. Qed.

Lemma look_some k : look (set_pos (p + ENUM_INDEX_ENCODED_LEN)%nat ;; ret k) (set_pos (p + ENUM_INDEX_ENCODED_LEN)%nat ;; ret k).
Proof. intros e1 e2 k0 q e' H. injection H as <- <- <-. split; [auto|]. intros _. exists e1. reflexivity. Qed.

Lemma look_pick vs f1 f2 : (GP -> vs <> [] -> G p) -> (forall v, look (f1 (inl v)) (f2 (inl v))) ->
  (forall y z, look (f1 (inr y)) (f2 (inr z))) ->
  look (do p0 <- get_pos; do v <- catch (pick_variant b1 vs p0); f1 v) (do p0 <- get_pos; do v <- catch (pick_variant b2 vs p0); f2 v).
Proof.
  intros Hg Hl Hr e1 e2 k q e2' H.
  change ((do v <- catch (pick_variant b2 vs p); f2 v) p e2 = (Ok k, q, e2')) in H.
  change ((q = (p + 1)%nat \/ q = p /\ k = CNone) /\ (GP -> exists e1', (do v <- catch (pick_variant b1 vs p); f1 v) p e1 = (Ok k, q, e1'))).
  revert e1 e2 k q e2' H. change (look (do v <- catch (pick_variant b1 vs p); f1 v) (do v <- catch (pick_variant b2 vs p); f2 v)).
  apply look_bind with (R := fun v1 v => match v with inl x => v1 = inl x | inr _ => exists y, v1 = inr y end).
  - intros e1 e2 v q e2' H. destruct (pick_catch _ _ e1 _ _ _ _ H) as (-> & S). split; [reflexivity|]. intros Hp. apply S, Hg, Hp.
  - exists (inr (NoCompact 0)). eauto.
  - intros v1 [v|y]; [intros ->; apply Hl|intros (z & ->); apply Hr].
  - intros [v|y]; eauto.
Qed.
End Look.

(** Recognition gives the same result if the byte looked at is good. It moves over that byte, or
    not at all, and then the type is not treated specially. *)
Lemma checked_same t p e1 e2 k q e2' : checked_from_type b2 r2 t p e2 = (Ok k, q, e2') ->
  (p <= q)%nat /\ (looks t = true -> q = (p + 1)%nat \/ q = p /\ k = CNone) /\
  ((looks t = true -> G p) -> exists e1', checked_from_type b1 r1 t p e1 = (Ok k, q, e1')).
Proof.
  unfold checked_from_type, looks.
  assert (Hl : forall (L : bool) m1 m2, look p (L = true -> G p) m1 m2 -> m2 p e2 = (Ok k, q, e2') ->
    (p <= q)%nat /\ (L = true -> q = (p + 1)%nat \/ q = p /\ k = CNone) /\ ((L = true -> G p) -> exists e1', m1 p e1 = (Ok k, q, e1'))).
  { intros L m1 m2 Hk H. destruct (Hk e1 _ _ _ _ H) as [H1 H2]. split; [destruct H1 as [->|[-> _]]; lia|]. auto. }
  destruct (hinted_from_type t);
    try (unfold ret; intros H; injection H as <- <- <-; split; [lia|]; split; [discriminate|]; intros _; exists e1; reflexivity).
  - destruct (t_def t) as [|vs| | | | | | ];
      try (unfold ret; intros H; injection H as <- <- <-; split; [lia|]; split; [discriminate|]; intros _; exists e1; reflexivity).
    apply Hl with (L := match vs with _ :: _ => true | [] => false end). apply look_pick.
    + intros Hg Hn. apply Hg. destruct vs; [destruct Hn; reflexivity|reflexivity].
    + intros v. destruct (v_fields v) as [|f [|g fs]]; try apply look_none. apply look_agree; [apply agree_signature|].
      intros []; [apply look_none|apply look_some..].
    + intros. apply look_none.
  - destruct (t_def t) as [|vs| | | | | | ];
      try (unfold ret; intros H; injection H as <- <- <-; split; [lia|]; split; [discriminate|]; intros _; exists e1; reflexivity).
    apply Hl with (L := match vs with _ :: _ => true | [] => false end). apply look_pick.
    + intros Hg Hn. apply Hg. destruct vs; [destruct Hn; reflexivity|reflexivity].
    + intros v. destruct (v_fields v) as [|f [|g fs]]; try apply look_none. apply look_agree; [apply agree_catch, agree_resolve|].
      intros [t2|x]; [|apply look_none]. destruct (hinted_from_type t2); try apply look_none.
      destruct (pitem_eqb _ _); [|apply look_none]. destruct (t_def t2); try apply look_none. apply look_some.
    + intros. apply look_none.
Qed.

Section Step.
Variable d1 : ty_input -> propagated -> M E1 parser_err (ext pdata).
Variable d2 : ty_input -> propagated -> M E2 parser_err (ext pdata).
Hypothesis Hdec : forall i P p, need p p (d1 i P) (d2 i P).

Lemma fields_loop_need fs c : forall p, need p p (fields_loop d1 fs c) (fields_loop d2 fs c).
Proof.
  induction fs as [|f fs IH]; intros p; cbn [fields_loop]; [apply need_ret; lia|].
  stay. eapply need_bind; [apply Hdec|]. intros a9 s Hs. eapply need_weaken with (t := s); [|lia].
  eapply need_bind; [apply IH|]. intros. apply need_ret. lia.
Qed.

Lemma fields_need fs c p : need p p (decode_fields d1 fs c) (decode_fields d2 fs c).
Proof.
  unfold decode_fields. destruct fs as [|f [|g fs]]; try apply fields_loop_need. stay. apply fields_loop_need.
Qed.

Lemma variant_need vs p : need p (p + 1) (decode_variant b1 d1 vs) (decode_variant b2 d2 vs).
Proof.
  unfold decode_variant. apply need_get. eapply hold_bind; [apply pick_hold|]. intros v. cbv beta. rewrite Nat.max_id.
  apply need_set; [lia|]. change (p + ENUM_INDEX_ENCODED_LEN)%nat with (p + 1)%nat.
  eapply need_bind; [apply fields_need|]. intros. apply need_ret. lia.
Qed.

Lemma elements_loop_need n hu : forall p, need p p (elements_loop d1 n hu) (elements_loop d2 n hu).
Proof.
  induction n as [|n IH]; intros p; cbn [elements_loop]; [apply need_ret; lia|].
  eapply need_bind; [apply Hdec|]. intros a9 s Hs. eapply need_weaken with (t := s); [|lia].
  eapply need_bind; [apply IH|]. intros. apply need_ret. lia.
Qed.

Lemma elements_need el n P p : need p p (decode_elements_set r1 d1 el n P) (decode_elements_set r2 d2 el n P).
Proof.
  unfold decode_elements_set. stay. stay. destruct (n =? 0)%N; [apply need_ret; lia|].
  eapply need_bind; [apply elements_loop_need|]. intros. apply need_ret. lia.
Qed.

Lemma tuple_loop_need ids c : forall p, need p p (tuple_loop r1 d1 ids c) (tuple_loop r2 d2 ids c).
Proof.
  induction ids as [|i ids IH]; intros p; cbn [tuple_loop]; [apply need_ret; lia|].
  stay. stay. eapply need_bind; [apply Hdec|]. intros a9 s Hs. eapply need_weaken with (t := s); [|lia].
  eapply need_bind; [apply IH|]. intros. apply need_ret. lia.
Qed.

Lemma plain_need t id P p : need p p (decode_plain b1 r1 d1 t id P) (decode_plain b2 r2 d2 t id P).
Proof.
  unfold decode_plain. destruct (t_def t) as [fs|vs|el|len el|ids|pr|inner|store order].
  - step. apply fields_need.
  - stay. destruct vs; [apply need_ret; lia|]. step. eapply need_weaken; [apply variant_need|lia].
  - eapply need_bind; [apply get_compact_need|]. intros n s Hs. eapply need_weaken; [apply elements_need|lia].
  - apply elements_need.
  - destruct ids as [|i [|j ids]]; [| |stay]; step; apply tuple_loop_need.
  - step. apply primitive_need.
  - stay. stay. apply Hdec.
  - stay. step. apply bit_sequence_need.
Qed.

Lemma plain_looks t id P p : looks t = true -> need p (p + 1) (decode_plain b1 r1 d1 t id P) (decode_plain b2 r2 d2 t id P).
Proof.
  intros H. assert (Hv : exists v vs, t_def t = TVariant (v :: vs)).
  { unfold looks in H. destruct (hinted_from_type t); try discriminate; destruct (t_def t) as [|[|v vs]| | | | | | ]; try discriminate; eauto. }
  destruct Hv as (v & vs & Hv). unfold decode_plain. rewrite Hv.
  eapply hold_bind with (T := fun _ => p); [apply agree_hold, agree_reject|]. intros u.
  eapply need_weaken with (t := (p + 1)%nat); [|lia].
  intros e1 e2 a q e' Hx. apply bind_ok in Hx. destruct Hx as (x & s & e3 & H1 & H2). injection H2 as <- <- <-.
  destruct (variant_need (v :: vs) p e1 _ _ _ _ H1) as (L1 & L2 & S). split; [exact L1|]. split; [exact L2|]. intros Hg.
  destruct (S Hg) as (e4 & S1). exists e4. unfold bind. rewrite S1. reflexivity.
Qed.

Lemma decode_checked_need k t id P p : need p p (decode_checked b1 r1 d1 k t id P) (decode_checked b2 r2 d2 k t id P).
Proof.
  destruct k; cbn [decode_checked].
  - apply plain_need.
  - step. apply block_need. step. apply cut_need.
  - stay. step. apply era_need.
  - stay. step. unfold special_case_h256. step. apply cut_need.
  - stay. step. eapply need_weaken; [apply variant_need|lia].
  - step. apply per_need.
Qed.

Lemma body_need i P p : need p p (decode_body b1 r1 d1 i P) (decode_body b2 r2 d2 i P).
Proof.
  unfold decode_body. apply need_agree; [|lia|].
  { destruct i as [t id|id]; [apply agree_ret|]. apply agree_bind; [apply agree_map_err, agree_resolve|]. intros. apply agree_ret. }
  intros [t id]. cbv zeta. intros e1 e2 a q e' H. apply bind_ok in H. destruct H as (k & s & e3 & H1 & H2).
  destruct (checked_same t p e1 _ _ _ _ H1) as (L1 & Hk & S1).
  destruct (decode_checked_need k t id (add_info P (info_from_ty t)) s e1 _ _ _ _ H2) as (_ & L2 & _).
  split; [lia|]. split; [lia|]. intros Hg.
  destruct S1 as (e4 & S1).
  { intros Hlook. apply Hg. split; [lia|]. destruct (Hk Hlook) as [->|[-> ->]]; [lia|].
    cbn [decode_checked] in H2. destruct (plain_looks t id (add_info P (info_from_ty t)) p Hlook e1 _ _ _ _ H2). lia. }
  destruct (decode_checked_need k t id (add_info P (info_from_ty t)) s e4 _ _ _ _ H2) as (_ & _ & S2).
  destruct S2 as (e5 & S2); [intros j Hj; apply Hg; lia|]. exists e5. unfold bind. rewrite S1. exact S2.
Qed.
End Step.

Lemma decode_need fuel : forall i P p, need p p (decode b1 r1 fuel i P) (decode b2 r2 fuel i P).
Proof.
  induction fuel as [|fuel IH]; intros; cbn [decode]; [intros ? ? ? ? ? H; discriminate|]. apply body_need, IH.
Qed.

Theorem only_consumed_needed i P p e1 e2 x q e2' : decode_with_type b2 r2 i P p e2 = (Ok x, q, e2') ->
  all_good p q -> exists e1', decode_with_type b1 r1 i P p e1 = (Ok x, q, e1').
Proof.
  unfold decode_with_type, decode_fuel. rewrite Hlen, Hbound. intros H. eapply (decode_need _ i P p e1 e2 x q e2' H).
Qed.
End Need.
