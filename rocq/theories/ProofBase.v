(** Lemmas about bytes, numbers, the monad and byte-slice sources. *)
From Coq Require Import Lia ZifyBool ZifyNat ZifyN.
From Verif Require Import Base Compact Types Spec.
Ltac Zify.zify_post_hook ::= Z.div_mod_to_equations.
Local Open Scope list_scope.

(** ** Little-endian numbers *)

Lemma le_bytes_length k n : List.length (le_bytes k n) = k.
Proof. revert n; induction k as [|k IH]; intros n; cbn [le_bytes List.length]; auto. Qed.

Lemma le_bytes_is_bytes k n : is_bytes (le_bytes k n).
Proof.
  revert n; induction k as [|k IH]; intros n; cbn [le_bytes]; [constructor|].
  constructor; [unfold is_byte; apply N.mod_lt; lia | apply IH].
Qed.

Lemma pow256_S k : (256 ^ N.of_nat (S k) = 256 * 256 ^ N.of_nat k)%N.
Proof. rewrite Nat2N.inj_succ, N.pow_succ_r by lia. reflexivity. Qed.

Lemma pow256_pos k : (0 < 256 ^ N.of_nat k)%N.
Proof. apply N.neq_0_lt_0. apply N.pow_nonzero. lia. Qed.

Lemma le_val_le_bytes k n : (n < 256 ^ N.of_nat k)%N -> le_val (le_bytes k n) = n.
Proof.
  revert n; induction k as [|k IH]; intros n H; cbn [le_bytes le_val].
  - change (256 ^ N.of_nat 0)%N with 1%N in H. lia.
  - rewrite pow256_S in H. rewrite IH.
    + pose proof (N.div_mod n 256). lia.
    + apply N.div_lt_upper_bound; lia.
Qed.

Lemma le_val_bound l : is_bytes l -> (le_val l < 256 ^ N.of_nat (List.length l))%N.
Proof.
  induction 1 as [|b l Hb Hl IH]; cbn [le_val List.length].
  - reflexivity.
  - rewrite pow256_S. unfold is_byte in Hb. lia.
Qed.

Lemma le_bytes_le_val l : is_bytes l -> le_bytes (List.length l) (le_val l) = l.
Proof.
  induction 1 as [|b l Hb Hl IH]; cbn [le_val List.length le_bytes]; auto.
  unfold is_byte in Hb. f_equal.
  - replace (b + 256 * le_val l)%N with (b + le_val l * 256)%N by lia.
    rewrite N.mod_add by lia. apply N.mod_small; lia.
  - replace (b + 256 * le_val l)%N with (le_val l * 256 + b)%N by lia.
    rewrite N.div_add_l by lia. rewrite (N.div_small b) by lia.
    rewrite N.add_0_r. exact IH.
Qed.

Lemma pow_2_256 k : (2 ^ (8 * N.of_nat k) = 256 ^ N.of_nat k)%N.
Proof. change 256%N with (2 ^ 8)%N. rewrite N.pow_mul_r. reflexivity. Qed.

Lemma fits_spec w n : fits w n = true <-> (n <= umax w)%N.
Proof.
  unfold fits, umax. rewrite pow_2_256. pose proof (pow256_pos (usize w)). lia.
Qed.

(** ** Lists *)

Lemma firstn_app_exact {A} (a b : list A) : firstn (List.length a) (a ++ b) = a.
Proof. rewrite firstn_app, firstn_all, Nat.sub_diag. cbn. apply app_nil_r. Qed.

Lemma skipn_app_exact {A} (a b : list A) : skipn (List.length a) (a ++ b) = b.
Proof. rewrite skipn_app, skipn_all, Nat.sub_diag. reflexivity. Qed.

Lemma skipn_skipn {A} n m (l : list A) : skipn n (skipn m l) = skipn (n + m) l.
Proof.
  revert l; induction m as [|m IH]; intros l.
  - rewrite Nat.add_0_r. reflexivity.
  - rewrite Nat.add_succ_r. destruct l as [|x l]; [rewrite !skipn_nil; reflexivity|].
    cbn [skipn]. apply IH.
Qed.

Lemma slice_mid (pre bs post : bytes) :
  slice (pre ++ bs ++ post) (List.length pre) (List.length bs) = bs.
Proof. unfold slice. rewrite skipn_app_exact. apply firstn_app_exact. Qed.

Lemma slice_length l p n : (p + n <= List.length l)%nat -> List.length (slice l p n) = n.
Proof. intros H. unfold slice. rewrite firstn_length, skipn_length. lia. Qed.

Lemma slice_split l p n : (p + n <= List.length l)%nat ->
  l = firstn p l ++ slice l p n ++ skipn (p + n) l.
Proof.
  intros H. unfold slice.
  rewrite <- (firstn_skipn p l) at 1. f_equal.
  rewrite <- (firstn_skipn n (skipn p l)) at 1. f_equal.
  rewrite skipn_skipn. f_equal. lia.
Qed.

Lemma slice_app l p n m : slice l p (n + m) = slice l p n ++ slice l (p + n) m.
Proof.
  unfold slice.
  replace (p + n)%nat with (n + p)%nat by lia. rewrite <- skipn_skipn.
  generalize (skipn p l) as k. clear l p.
  induction n as [|n IH]; intros k; [reflexivity|].
  destruct k as [|x k]; cbn [firstn skipn Nat.add app].
  - rewrite firstn_nil. reflexivity.
  - f_equal. apply IH.
Qed.

Lemma is_bytes_app a b : is_bytes (a ++ b) <-> is_bytes a /\ is_bytes b.
Proof. apply Forall_app. Qed.

Lemma Forall_firstn {A} (P : A -> Prop) n l : Forall P l -> Forall P (firstn n l).
Proof. intros H; revert n; induction H; intros [|n]; cbn; constructor; auto. Qed.

Lemma Forall_skipn {A} (P : A -> Prop) n l : Forall P l -> Forall P (skipn n l).
Proof. intros H; revert n; induction H; intros [|n]; cbn; auto. Qed.

Lemma is_bytes_slice l p n : is_bytes l -> is_bytes (slice l p n).
Proof. intros H. apply Forall_firstn, Forall_skipn, H. Qed.

Lemma slice_0 l p : slice l p 0 = [].
Proof. reflexivity. Qed.

(** ** Monad inversion *)

Lemma bind_ok {E X A B} (m : M E X A) (f : A -> M E X B) p e b q e' :
  bind m f p e = (Ok b, q, e') ->
  exists a p1 e1, m p e = (Ok a, p1, e1) /\ f a p1 e1 = (Ok b, q, e').
Proof.
  unfold bind. destruct (m p e) as [[[a|x| |] p1] e1]; intros H; try discriminate.
  eauto.
Qed.

Lemma map_err_ok {E X Y A} (g : X -> Y) (m : M E X A) p e a q e' :
  map_err g m p e = (Ok a, q, e') -> m p e = (Ok a, q, e').
Proof.
  unfold map_err. destruct (m p e) as [[[a1|x| |] p1] e1]; intros H; try discriminate.
  inversion H; reflexivity.
Qed.

Lemma bind_ok_step {E X A B} (m : M E X A) (f : A -> M E X B) p e a p1 e1 :
  m p e = (Ok a, p1, e1) -> bind m f p e = f a p1 e1.
Proof. intros H. unfold bind. rewrite H. reflexivity. Qed.

Lemma map_err_ok_step {E X Y A} (g : X -> Y) (m : M E X A) p e a q e' :
  m p e = (Ok a, q, e') -> map_err g m p e = (Ok a, q, e').
Proof. intros H. unfold map_err. rewrite H. reflexivity. Qed.

Lemma lift_ok {E X A} (r : A + X) p (e : E) a q e' :
  lift r p e = (Ok a, q, e') -> r = inl a /\ q = p /\ e' = e.
Proof. destruct r; cbn; intros H; inversion H; auto. Qed.

Ltac inv_bind H :=
  let a := fresh "a" in let p1 := fresh "p" in let e1 := fresh "e" in
  let H1 := fresh "H" in
  apply bind_ok in H; destruct H as (a & p1 & e1 & H1 & H).

(** ** Reading from byte slices *)

Section SliceRead.
Context {E : Type}.
Variable data : bytes.

Lemma read_slice_ok p n q (e : E) l q' e' :
  read_slice (slice_buffer data) p n q e = (Ok l, q', e') <->
  (q' = q /\ e' = e /\ (N.of_nat p + n <= N.of_nat (List.length data))%N
   /\ l = slice data p (N.to_nat n)).
Proof.
  unfold read_slice, slice_buffer, rd, slice_rd.
  destruct (Nat.ltb_spec (List.length data) p) as [H|H].
  - split; [discriminate|]. lia.
  - destruct (N.ltb_spec (N.of_nat (List.length data)) (N.of_nat p + n)) as [H1|H1].
    + split; [discriminate|]. lia.
    + split; [intros H2; inversion H2; auto|]. intros (-> & -> & _ & ->). reflexivity.
Qed.

Lemma read_slice_do p n q (e : E) :
  (N.of_nat p + n <= N.of_nat (List.length data))%N ->
  read_slice (slice_buffer data) p n q e = (Ok (slice data p (N.to_nat n)), q, e).
Proof. intros H. apply read_slice_ok. auto. Qed.

Lemma read_byte_ok p q (e : E) x q' e' :
  read_byte (slice_buffer data) p q e = (Ok x, q', e') <->
  (q' = q /\ e' = e /\ nth_error data p = Some x).
Proof.
  unfold read_byte, bind.
  destruct (read_slice (slice_buffer data) p 1 q e) as [[[l|y| |] q1] e1] eqn:H.
  - apply read_slice_ok in H. destruct H as (-> & -> & Hlen & ->).
    unfold slice. change (N.to_nat 1) with 1%nat.
    assert (Hp : (p < List.length data)%nat) by lia.
    destruct (nth_error data p) as [y|] eqn:Hn.
    + apply nth_error_split in Hn. destruct Hn as (l1 & l2 & -> & <-).
      rewrite skipn_app_exact. cbn. split.
      * intros Hx; inversion Hx; auto.
      * intros (-> & -> & Hx); inversion Hx; auto.
    + apply nth_error_None in Hn. lia.
  - split; [discriminate|]. intros (-> & -> & Hn).
    assert (Hp : (p < List.length data)%nat) by (apply nth_error_Some; congruence).
    rewrite read_slice_do in H by lia. discriminate.
  - unfold read_slice in H. destruct (rd _ _ _ _) as [[?|?] ?]; discriminate.
  - unfold read_slice in H. destruct (rd _ _ _ _) as [[?|?] ?]; discriminate.
Qed.
End SliceRead.
