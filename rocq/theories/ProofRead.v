(** Readers of single items at a position of a byte slice. *)
From Coq Require Import Lia ZifyBool ZifyNat ZifyN.
From Verif Require Import Base Compact Types Indicators Decode Spec ProofBase ProofCompact
  ProofUtf8 ProofLeaf.
Ltac Zify.zify_post_hook ::= Z.div_mod_to_equations.
Local Open Scope list_scope.

(** Result, unless the recursion bound of the model was hit. *)
Definition okf {E X A} (m : M E X A) (p : nat) (e : E) (a : A) (q : nat) : Prop :=
  m p e = (Ok a, q, e) \/ exists q' e', m p e = (OutOfFuel, q', e').

Lemma okf_ok {E X A} (m : M E X A) p e a q : m p e = (Ok a, q, e) -> okf m p e a q.
Proof. left. assumption. Qed.

Lemma okf_ret {E X A} (a : A) p (e : E) : okf (@ret E X A a) p e a p.
Proof. left. reflexivity. Qed.

Lemma okf_bind {E X A B} (m : M E X A) (f : A -> M E X B) p e a p1 b q :
  okf m p e a p1 -> okf (f a) p1 e b q -> okf (bind m f) p e b q.
Proof.
  intros [H|(q' & e' & H)] Hf; unfold okf, bind; rewrite H; [exact Hf|right; eauto].
Qed.

Lemma okf_map_err {E X Y A} (g : X -> Y) (m : M E X A) p e a q :
  okf m p e a q -> okf (map_err g m) p e a q.
Proof.
  intros [H|(q' & e' & H)]; unfold okf, map_err; rewrite H; [left; auto|right; eauto].
Qed.

Lemma okf_catch {E X Y A} (m : M E X A) p e a q :
  okf m p e a q -> okf (@catch E X Y A m) p e (inl a) q.
Proof.
  intros [H|(q' & e' & H)]; unfold okf, catch; rewrite H; [left; auto|right; eauto].
Qed.

Lemma okf_lift {E X A} (r : A + X) p (e : E) a : r = inl a -> okf (lift r) p e a p.
Proof. intros ->. left. reflexivity. Qed.

(** An error, unless the recursion bound was hit. *)
Definition errf {E X A} (m : M E X A) (p : nat) (e : E) (q : nat) : Prop :=
  (exists x, m p e = (Err x, q, e)) \/ exists q' e', m p e = (OutOfFuel, q', e').


Lemma catch_errf {E X Y A B} (m : M E X A) p e q (k : A + X -> M E Y B) b q2 :
  errf m p e q -> (forall x, okf (k (inr x)) q e b q2) -> okf (bind (catch m) k) p e b q2.
Proof.
  intros [(x & H)|(q' & e' & H)] Hk; unfold okf, bind, catch; rewrite H; [apply Hk|right; eauto].
Qed.

Lemma errf_bind {E X A B} (m : M E X A) (f : A -> M E X B) p e a p1 q :
  okf m p e a p1 -> errf (f a) p1 e q -> errf (bind m f) p e q.
Proof.
  intros [H|(q' & e' & H)] Hf; unfold errf, bind; rewrite H; [exact Hf|right; eauto].
Qed.

Lemma errf_bind1 {E X A B} (m : M E X A) (f : A -> M E X B) p e q :
  errf m p e q -> errf (bind m f) p e q.
Proof.
  intros [(x & H)|(q' & e' & H)]; unfold errf, bind; rewrite H; [left; eauto|right; eauto].
Qed.

Lemma errf_map_err {E X Y A} (g : X -> Y) (m : M E X A) p e q :
  errf m p e q -> errf (map_err g m) p e q.
Proof.
  intros [(x & H)|(q' & e' & H)]; unfold errf, map_err; rewrite H; [left; eauto|right; eauto].
Qed.

Lemma okf_not_out {E X A} (m : M E X A) p e a q :
  okf m p e a q -> (forall q' e', m p e <> (OutOfFuel, q', e')) -> m p e = (Ok a, q, e).
Proof. intros [H|(q' & e' & H)] Hn; auto. exfalso. eapply Hn, H. Qed.

(** Monadic steps that cannot fail. *)
Lemma get_pos_ok {E X} p (e : E) a q e' :
  @get_pos E X p e = (Ok a, q, e') <-> a = p /\ q = p /\ e' = e.
Proof. cbn. split; [intros H; inversion H; auto|intros (-> & -> & ->); reflexivity]. Qed.

Lemma ret_ok {E X A} (a : A) p (e : E) b q e' :
  @ret E X A a p e = (Ok b, q, e') <-> b = a /\ q = p /\ e' = e.
Proof. cbn. split; [intros H; inversion H; auto|intros (-> & -> & ->); reflexivity]. Qed.

Lemma set_pos_ok {E X} n p (e : E) a q e' :
  @set_pos E X n p e = (Ok a, q, e') <-> a = tt /\ q = n /\ e' = e.
Proof. cbn. split; [intros H; inversion H; auto|intros (-> & -> & ->); reflexivity]. Qed.

Lemma bind_ok_iff {E X A B} (m : M E X A) (f : A -> M E X B) p e b q e' :
  bind m f p e = (Ok b, q, e') <->
  exists a p1 e1, m p e = (Ok a, p1, e1) /\ f a p1 e1 = (Ok b, q, e').
Proof.
  split; [apply bind_ok|]. intros (a & p1 & e1 & H & H1). unfold bind. rewrite H. exact H1.
Qed.

Lemma map_err_ok_iff {E X Y A} (g : X -> Y) (m : M E X A) p e a q e' :
  map_err g m p e = (Ok a, q, e') <-> m p e = (Ok a, q, e').
Proof. split; [apply map_err_ok | apply map_err_ok_step]. Qed.

Lemma int_bytes_length k z : List.length (int_bytes k z) = k.
Proof. apply le_bytes_length. Qed.

Section Read.
Context {E : Type}.
Variable data : bytes.
Hypothesis Hbytes : is_bytes data.
Local Notation buf := (@slice_buffer E data).

Lemma read_exact_ok n p (e : E) l q e' :
  read_exact buf n p e = (Ok l, q, e') <->
  q = p /\ e' = e /\ (N.of_nat p + n <= N.of_nat (List.length data))%N /\
  l = slice data p (N.to_nat n).
Proof.
  unfold read_exact. rewrite bind_ok_iff. split.
  - intros (a & p1 & e1 & H & H1). apply get_pos_ok in H. destruct H as (-> & -> & ->).
    apply bind_ok in H1. destruct H1 as (l1 & p2 & e2 & H1 & H2).
    apply read_slice_ok in H1. destruct H1 as (-> & -> & Hle & ->).
    destruct (_ =? n)%N; [|discriminate]. apply ret_ok in H2. destruct H2 as (-> & -> & ->). auto.
  - intros (-> & -> & Hle & ->). exists p, p, e. split; [reflexivity|].
    unfold bind. rewrite read_slice_do by exact Hle. rewrite slice_length by lia.
    replace (N.of_nat (N.to_nat n) =? n)%N with true by lia. reflexivity.
Qed.

Lemma cut_and_decode_ok {A} n name (f : bytes -> option A) p (e : E) a q e' :
  cut_and_decode buf n name f p e = (Ok a, q, e') <->
  e' = e /\ q = (p + N.to_nat n)%nat /\ (N.of_nat p + n <= N.of_nat (List.length data))%N /\
  f (slice data p (N.to_nat n)) = Some a.
Proof.
  unfold cut_and_decode. split.
  - intros H. apply bind_ok in H. destruct H as (p0 & p1 & e1 & H & H1).
    apply get_pos_ok in H. destruct H as (-> & -> & ->).
    apply bind_ok in H1. destruct H1 as (l & p2 & e2 & H1 & H2).
    apply read_exact_ok in H1. destruct H1 as (-> & -> & Hle & ->).
    destruct (f _) as [x|] eqn:Hf; [|discriminate].
    cbn in H2. inversion H2; subst. auto.
  - intros (-> & -> & Hle & Hf). unfold bind at 1. cbn [get_pos].
    unfold bind at 1. rewrite (proj2 (read_exact_ok n p e _ p e)) by (repeat split; eauto).
    rewrite Hf. reflexivity.
Qed.

(** A fixed-length item: [g] maps bytes to the item, [h] back. *)
Lemma cut_fixed_len {A} n name (f : bytes -> option A) (h : A -> bytes) (ok : A -> bool) p (e : E) a q e' :
  (forall l x, is_bytes l -> List.length l = N.to_nat n -> f l = Some x -> ok x = true /\ h x = l) ->
  (forall x, ok x = true -> List.length (h x) = N.to_nat n /\ f (h x) = Some x) ->
  (0 < n)%N ->
  cut_and_decode buf n name f p e = (Ok a, q, e') <->
  e' = e /\ q = (p + List.length (h a))%nat /\ has data p (h a) /\ ok a = true.
Proof.
  intros H1 H2 Hn. rewrite cut_and_decode_ok. split.
  - intros (-> & -> & Hle & Hf).
    destruct (H1 _ _ (is_bytes_slice _ p (N.to_nat n) Hbytes) ltac:(apply slice_length; lia) Hf)
      as (Hok & Hh).
    rewrite Hh. rewrite slice_length by lia. repeat split; auto.
    apply has_slice. lia.
  - intros (-> & -> & Hh & Hok). destruct (H2 _ Hok) as (Hl & Hf).
    rewrite Hl in *. destruct (has_len _ _ _ Hh) as [He|Hle].
    { rewrite He in Hl. cbn in Hl. lia. }
    repeat split; auto; [lia|]. unfold has in Hh. rewrite Hl in Hh. rewrite Hh. exact Hf.
Qed.

Lemma cut_uint_ok w p (e : E) n q e' :
  cut_uint buf w p e = (Ok n, q, e') <->
  e' = e /\ q = (p + usize w)%nat /\ has data p (le_bytes (usize w) n) /\ fits w n = true.
Proof.
  unfold cut_uint.
  rewrite (cut_fixed_len _ _ _ (le_bytes (usize w)) (fits w)); rewrite ?le_bytes_length; [tauto| | |].
  - intros l x Hb Hl Hx. injection Hx as <-. rewrite Nat2N.id in Hl. split.
    + rewrite fits_pow, <- Hl. apply N.ltb_lt, le_val_bound, Hb.
    + rewrite <- Hl. apply le_bytes_le_val, Hb.
  - intros x Hx. rewrite le_bytes_length, Nat2N.id. split; auto. f_equal.
    apply le_val_le_bytes. rewrite fits_pow in Hx. lia.
  - destruct w; reflexivity.
Qed.

Lemma cut_int_ok w p (e : E) z q e' :
  cut_int buf w p e = (Ok z, q, e') <->
  e' = e /\ q = (p + usize w)%nat /\ has data p (int_bytes (usize w) z) /\
  int_range (usize w) z = true.
Proof.
  assert (Hw : (0 < usize w)%nat) by (destruct w; cbn; lia).
  unfold cut_int.
  rewrite (cut_fixed_len _ _ _ (int_bytes (usize w)) (int_range (usize w))); rewrite ?int_bytes_length; [tauto| | |lia].
  - intros l x Hb Hl Hx. injection Hx as <-. rewrite Nat2N.id in Hl. rewrite <- Hl.
    apply int_bytes_le_sval; auto. lia.
  - intros x Hx. rewrite int_bytes_length, Nat2N.id. split; auto. f_equal.
    apply le_sval_int_bytes; auto.
Qed.

Lemma cut_i256_ok p (e : E) z q e' :
  cut_i256 buf p e = (Ok z, q, e') <->
  e' = e /\ q = (p + 32)%nat /\ has data p (int_bytes 32 z) /\ int_range 32 z = true.
Proof.
  unfold cut_i256.
  rewrite (cut_fixed_len _ _ _ (int_bytes 32) (int_range 32)); rewrite ?int_bytes_length; [tauto| | |lia].
  - intros l x Hb Hl Hx. injection Hx as <-. change (N.to_nat 32) with 32%nat in Hl. rewrite <- Hl.
    apply int_bytes_le_sval; auto. lia.
  - intros x Hx. rewrite int_bytes_length. split; auto. f_equal.
    apply le_sval_int_bytes; auto. lia.
Qed.

Lemma cut_u256_ok p (e : E) n q e' :
  cut_u256 buf p e = (Ok n, q, e') <->
  e' = e /\ q = (p + 32)%nat /\ has data p (le_bytes 32 n) /\ (n <? 2 ^ 256)%N = true.
Proof.
  unfold cut_u256.
  assert (Hpow : (2 ^ 256 = 256 ^ N.of_nat 32)%N) by reflexivity. rewrite Hpow.
  rewrite (cut_fixed_len _ _ _ (le_bytes 32) (fun n => n <? 256 ^ N.of_nat 32)%N);
    rewrite ?le_bytes_length; [tauto| | |lia].
  - intros l x Hb Hl Hx. injection Hx as <-. change (N.to_nat 32) with 32%nat in Hl. split.
    + rewrite <- Hl. apply N.ltb_lt, le_val_bound, Hb.
    + rewrite <- Hl. apply le_bytes_le_val, Hb.
  - intros x Hx. rewrite le_bytes_length. split; auto. f_equal.
    apply le_val_le_bytes. apply N.ltb_lt, Hx.
Qed.

Lemma cut_bool_ok p (e : E) v q e' :
  cut_bool buf p e = (Ok v, q, e') <->
  e' = e /\ q = (p + 1)%nat /\ has data p [if v then 1%N else 0%N].
Proof.
  unfold cut_bool.
  rewrite (cut_fixed_len _ _ _ (fun v : bool => [if v then 1%N else 0%N]) (fun _ => true));
    [cbn [List.length]; tauto| | |lia].
  - intros l x Hb Hl Hx. destruct l as [|y [|]]; try discriminate. split; auto.
    unfold decode_bool in Hx. destruct y as [|[?|?|]]; inversion Hx; reflexivity.
  - intros [|] _; split; reflexivity.
Qed.

Lemma cut_char_ok p (e : E) n q e' :
  cut_char buf p e = (Ok n, q, e') <->
  e' = e /\ q = (p + 4)%nat /\ has data p (le_bytes 4 n) /\ scalar n = true.
Proof.
  unfold cut_char.
  rewrite (cut_fixed_len _ _ _ (le_bytes 4) scalar); rewrite ?le_bytes_length; [tauto| | |lia].
  - intros l x Hb Hl Hx. rewrite char_valid_scalar in Hx.
    destruct (scalar (le_val l)) eqn:Hs; [|discriminate]. injection Hx as <-.
    change (N.to_nat 4) with 4%nat in Hl. split; auto. rewrite <- Hl. apply le_bytes_le_val, Hb.
  - intros x Hx. rewrite le_bytes_length. split; auto.
    assert (Hv : le_val (le_bytes 4 x) = x).
    { apply le_val_le_bytes. change (256 ^ N.of_nat 4)%N with 4294967296%N. unfold scalar in Hx. lia. }
    rewrite Hv, char_valid_scalar, Hx. reflexivity.
Qed.

Lemma cut_per_ok k p (e : E) n q e' :
  cut_per buf k p e = (Ok n, q, e') <->
  e' = e /\ q = (p + usize (part_width k))%nat /\
  has data p (le_bytes (usize (part_width k)) n) /\ (n <=? whole k)%N = true.
Proof.
  unfold cut_per. rewrite per_width_part, per_max_whole.
  rewrite (cut_fixed_len _ _ _ (le_bytes (usize (part_width k))) (fun n => n <=? whole k)%N);
    rewrite ?le_bytes_length; [tauto| | |].
  - intros l x Hb Hl Hx. destruct (le_val l <=? whole k)%N eqn:Hs; [|discriminate]. injection Hx as <-.
    rewrite Nat2N.id in Hl. split; auto. rewrite <- Hl. apply le_bytes_le_val, Hb.
  - intros x Hx. rewrite le_bytes_length, Nat2N.id. split; auto.
    assert (Hv : le_val (le_bytes (usize (part_width k)) x) = x).
    { apply le_val_le_bytes. apply N.leb_le in Hx. apply whole_fits in Hx. rewrite fits_pow in Hx. lia. }
    rewrite Hv, Hx. reflexivity.
  - destruct k; reflexivity.
Qed.

Lemma is_bytesb_spec l : is_bytesb l = true <-> is_bytes l.
Proof.
  unfold is_bytesb, is_bytes, is_byte. rewrite forallb_forall, Forall_forall.
  split; intros H x Hx; apply N.ltb_lt; auto.
Qed.

Lemma cut_raw_ok n name p (e : E) l q e' : (0 < n)%N ->
  cut_and_decode buf n name (fun l => Some l) p e = (Ok l, q, e') <->
  e' = e /\ q = (p + List.length l)%nat /\ has data p l /\
  (is_bytesb l && Nat.eqb (List.length l) (N.to_nat n))%bool = true.
Proof.
  intros Hn.
  rewrite (cut_fixed_len _ _ _ (fun l => l)
             (fun l => is_bytesb l && Nat.eqb (List.length l) (N.to_nat n))%bool); [tauto| | |exact Hn].
  - intros x y Hb Hl Hx. injection Hx as <-. split; auto.
    apply andb_true_iff. split; [apply is_bytesb_spec, Hb|apply Nat.eqb_eq, Hl].
  - intros x Hx. apply andb_true_iff in Hx. destruct Hx as [_ Hx]. apply Nat.eqb_eq in Hx. auto.
Qed.

Lemma cut_fixed_ok k p (e : E) l q e' :
  cut_fixed buf k p e = (Ok l, q, e') <->
  e' = e /\ q = (p + List.length l)%nat /\ has data p l /\
  (is_bytesb l && Nat.eqb (List.length l) (raw_len k))%bool = true.
Proof.
  unfold cut_fixed. rewrite cut_raw_ok by (destruct k; reflexivity).
  rewrite fixed_len_raw, Nat2N.id. tauto.
Qed.

Lemma has_one p x : has data p [x] -> (p < List.length data)%nat.
Proof. intros H. destruct (has_len _ _ _ H) as [H1|H1]; [discriminate|cbn in H1; lia]. Qed.

Lemma special_case_era_ok p (e : E) d q e' :
  special_case_era buf p e = (Ok d, q, e') <->
  exists v, d = DEra v /\ e' = e /\ era_valid v = true /\ has data p (era_enc v) /\
            q = (p + List.length (era_enc v))%nat.
Proof.
  unfold special_case_era. split.
  - intros H. apply bind_ok in H. destruct H as (p0 & p1 & e1 & H & H1).
    apply get_pos_ok in H. destruct H as (-> & -> & ->).
    apply bind_ok in H1. destruct H1 as (l1 & p1 & e1 & H1 & H2).
    apply read_slice_ok in H1. destruct H1 as (-> & -> & Hle & ->).
    change (N.to_nat 1) with 1%nat in H2.
    assert (Hl : List.length (slice data p 1) = 1%nat) by (apply slice_length; lia).
    assert (Hh : has data p (slice data p 1)) by (apply has_slice; lia).
    destruct (slice data p 1) as [|x [|]] eqn:Hs; cbn in Hl; try lia.
    cbn [era_decode_all] in H2.
    destruct (N.eqb_spec x 0) as [->|Hx].
    + cbn in H2. inversion H2; subst. exists Immortal. repeat split; auto.
    + apply bind_ok in H2. destruct H2 as (l2 & p2 & e2 & H2 & H3).
      apply read_slice_ok in H2. destruct H2 as (-> & -> & Hle2 & ->).
      change (N.to_nat 2) with 2%nat in H3.
      assert (Hl2 : List.length (slice data p 2) = 2%nat) by (apply slice_length; lia).
      assert (Hh2 : has data p (slice data p 2)) by (apply has_slice; lia).
      assert (Hb2 : is_bytes (slice data p 2)) by (apply is_bytes_slice, Hbytes).
      destruct (slice data p 2) as [|x0 [|y [|]]] eqn:Hs2; cbn in Hl2; try lia.
      assert (x0 = x).
      { change 2%nat with (1 + 1)%nat in Hs2. rewrite slice_app, Hs in Hs2. cbn in Hs2. congruence. }
      subst x0. cbn [era_decode_all] in H3.
      destruct (N.eqb_spec x 0) as [|_]; [contradiction|].
      destruct (era_of_encoded (x + N.shiftl y 8)) as [v|] eqn:Hv; [|discriminate].
      cbn in H3. inversion H3; subst.
      inversion Hb2 as [|? ? Hx1 Hb3]; subst. inversion Hb3 as [|? ? Hy1 _]; subst.
      destruct (era_of_encoded_spec x y v Hx1 Hy1 Hx Hv) as (_ & Hval & Henc).
      exists v. rewrite Henc. repeat split; auto.
  - intros (v & -> & -> & Hv & Hh & ->).
    unfold bind at 1. cbn [get_pos]. unfold bind at 1.
    destruct (era_enc_shape v Hv) as [(-> & He)|(b0 & b1 & He & Hb0 & Hb0' & Hb1 & Hd)]; rewrite He in *.
    + pose proof (has_one _ _ Hh) as Hp. rewrite read_slice_do by lia.
      unfold has in Hh. cbn [List.length] in Hh. change (N.to_nat 1) with 1%nat. rewrite Hh. reflexivity.
    + assert (Hlen : (p + 2 <= List.length data)%nat).
      { destruct (has_len _ _ _ Hh) as [H1|H1]; [discriminate|exact H1]. }
      rewrite read_slice_do by lia. change (N.to_nat 1) with 1%nat.
      unfold has in Hh. cbn [List.length] in Hh.
      pose proof Hh as Hh2. change 2%nat with (1 + 1)%nat in Hh2. rewrite slice_app in Hh2.
      assert (Hl1 : List.length (slice data p 1) = 1%nat) by (apply slice_length; lia).
      destruct (slice data p 1) as [|x [|]] eqn:Hs; cbn in Hl1; try lia.
      cbn [app] in Hh2. injection Hh2 as -> _.
      cbn [era_decode_all]. replace (b0 =? 0)%N with false by lia.
      unfold bind at 1. rewrite read_slice_do by lia. change (N.to_nat 2) with 2%nat. rewrite Hh.
      cbn [era_decode_all]. replace (b0 =? 0)%N with false by lia. rewrite Hd. reflexivity.
Qed.

Lemma decode_str_ok h p (e : E) d q e' :
  decode_str buf h p e = (Ok d, q, e') <->
  exists cs, forallb scalar cs = true /\ d = DText (utf8s cs) (hint_str h) /\ e' = e /\
    fits U32 (N.of_nat (List.length (utf8s cs))) = true /\
    has data p (compact_enc (N.of_nat (List.length (utf8s cs))) ++ utf8s cs) /\
    q = (p + List.length (compact_enc (N.of_nat (List.length (utf8s cs))) ++ utf8s cs))%nat.
Proof.
  unfold decode_str. split.
  - intros H. apply bind_ok in H. destruct H as (p0 & p1 & e1 & H & H1).
    apply get_pos_ok in H. destruct H as (-> & -> & ->).
    apply bind_ok in H1. destruct H1 as ([n ts] & p1 & e1 & H1 & H2).
    apply (find_compact_ok data Hbytes) in H1. destruct H1 as (-> & -> & Hf & -> & Hle & Hs).
    apply bind_ok in H2. destruct H2 as (l & p2 & e2 & H2 & H3).
    apply read_slice_ok in H2. destruct H2 as (-> & -> & Hle2 & ->).
    set (text := slice data (p + List.length (compact_enc n)) (N.to_nat n)) in *.
    assert (Hlt : List.length text = N.to_nat n) by (apply slice_length; lia).
    assert (Hht : has data (p + List.length (compact_enc n)) text) by (apply has_slice; lia).
    destruct (utf8_valid text) eqn:Hu; [|discriminate].
    apply utf8_valid_spec in Hu. destruct Hu as (cs & Hcs & Ht).
    cbn in H3. inversion H3; subst d q e'.
    exists cs. rewrite <- Ht.
    replace (N.of_nat (List.length text)) with n by lia.
    repeat split; auto.
    + apply has_app. split; auto.
    + rewrite app_length. lia.
  - intros (cs & Hcs & -> & -> & Hf & Hh & ->).
    set (text := utf8s cs) in *. remember (N.of_nat (List.length text)) as n eqn:Hn.
    apply has_app in Hh. destruct Hh as [H1 H2].
    assert (Hle : (p + List.length (compact_enc n) <= List.length data)%nat).
    { destruct (has_len _ _ _ H1) as [He|Hl]; auto. exfalso. apply (compact_enc_nonempty n He). }
    pose proof (has_le _ _ _ H2 Hle) as Hle2.
    unfold bind at 1. cbn [get_pos]. unfold bind at 1.
    rewrite (proj2 (find_compact_ok data Hbytes U32 p p e n _ p e)) by (repeat split; eauto).
    unfold bind at 1. rewrite read_slice_do by lia.
    replace (N.to_nat n) with (List.length text) by lia.
    unfold has in H2. rewrite H2. unfold text at 1. rewrite utf8_valid_utf8s by auto.
    unfold bind, set_pos, ret. rewrite app_length. rewrite Nat.add_assoc.
    reflexivity.
Qed.

Lemma pick_variant_ok vs at_p p (e : E) v q e' :
  pick_variant buf vs at_p p e = (Ok v, q, e') <->
  q = p /\ e' = e /\ exists i, nth_error data at_p = Some i /\ by_index vs i = Some v.
Proof.
  unfold pick_variant. rewrite bind_ok_iff. split.
  - intros (i & p1 & e1 & H & H1). apply read_byte_ok in H. destruct H as (-> & -> & Hn).
    unfold find_variant in H1. destruct (find _ vs) as [v1|] eqn:Hf; [|discriminate].
    apply ret_ok in H1. destruct H1 as (-> & -> & ->). repeat split; auto. exists i. auto.
  - intros (-> & -> & i & Hn & Hi). exists i, p, e. split; [apply read_byte_ok; auto|].
    unfold find_variant. unfold by_index in Hi. rewrite Hi. reflexivity.
Qed.

Lemma read_byte_total at_p p (e : E) :
  (exists x, nth_error data at_p = Some x /\ read_byte buf at_p p e = (Ok x, p, e)) \/
  (nth_error data at_p = None /\ exists y, read_byte buf at_p p e = (Err y, p, e)).
Proof.
  destruct (nth_error data at_p) as [x|] eqn:Hn.
  - left. exists x. split; auto. apply read_byte_ok. auto.
  - right. split; auto. apply nth_error_None in Hn. unfold read_byte, bind, read_slice, slice_buffer, rd, slice_rd.
    destruct (Nat.ltb_spec (List.length data) at_p); [eauto|].
    destruct (N.ltb_spec (N.of_nat (List.length data)) (N.of_nat at_p + 1)); [eauto|lia].
Qed.

Lemma pick_variant_total vs at_p p (e : E) :
  match nth_error data at_p with
  | Some i => match by_index vs i with
              | Some v => pick_variant buf vs at_p p e = (Ok v, p, e)
              | None => pick_variant buf vs at_p p e = (Err (UnexpectedEnumVariant at_p), p, e)
              end
  | None => exists x, pick_variant buf vs at_p p e = (Err x, p, e)
  end.
Proof.
  destruct (read_byte_total at_p p e) as [(x & Hn & Hr)|(Hn & y & Hr)]; rewrite Hn;
    unfold pick_variant, bind; rewrite Hr; [|eauto].
  unfold find_variant, by_index. destruct (find _ vs); reflexivity.
Qed.

End Read.
