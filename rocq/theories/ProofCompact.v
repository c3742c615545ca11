(** Compact integers: [compact_decode] and [find_compact] against [compact_enc]. *)
From Coq Require Import Lia ZifyBool ZifyNat ZifyN.
From Verif Require Import Base Compact Types Spec ProofBase.
Ltac Zify.zify_post_hook ::= Z.div_mod_to_equations.
Local Open Scope list_scope.

Lemma le_bytes_S k n : le_bytes (S k) n = (n mod 256)%N :: le_bytes k (n / 256)%N.
Proof. reflexivity. Qed.

Lemma take_app a b : take (List.length a) (a ++ b) = Some (a, b).
Proof.
  unfold take. rewrite firstn_app_exact, skipn_app_exact.
  destruct (Nat.leb_spec (List.length a) (List.length (a ++ b))) as [H|H]; auto.
  rewrite app_length in H. lia.
Qed.

Lemma take_le_app k n r : (n < 256 ^ N.of_nat k)%N -> take_le k (le_bytes k n ++ r) = Some n.
Proof.
  intros H. unfold take_le.
  rewrite <- (le_bytes_length k n) at 1. rewrite take_app. rewrite le_val_le_bytes; auto.
Qed.

Lemma take_le_inv k l y : is_bytes l -> take_le k l = Some y ->
  exists r, l = le_bytes k y ++ r /\ (y < 256 ^ N.of_nat k)%N.
Proof.
  intros Hb. unfold take_le, take.
  destruct (Nat.leb_spec k (List.length l)) as [H|H]; [|discriminate].
  intros Hy; inversion Hy as [Hy']. exists (skipn k l).
  assert (Hl : List.length (firstn k l) = k) by (rewrite firstn_length; lia).
  assert (Hf : is_bytes (firstn k l)) by (apply Forall_firstn; auto).
  split.
  - rewrite <- Hl at 1. rewrite le_bytes_le_val by auto.
    rewrite firstn_skipn. reflexivity.
  - rewrite <- Hl at 2. apply le_val_bound; auto.
Qed.

Lemma pow256_mono a b : (a <= b)%nat -> (256 ^ N.of_nat a <= 256 ^ N.of_nat b)%N.
Proof. intros H. apply N.pow_le_mono_r; lia. Qed.

Lemma big_len_unique k x : (4 <= k)%nat ->
  (k = 4%nat -> (2 ^ 30 <= x)%N) ->
  ((4 < k)%nat -> (256 ^ N.of_nat (k - 1) <= x)%N) ->
  (x < 256 ^ N.of_nat k)%N -> big_len x = k.
Proof.
  intros Hk H4 Hlo Hhi.
  assert (Hx : (0 < x)%N).
  { destruct (Nat.eq_dec k 4) as [->|Hne].
    - specialize (H4 eq_refl). change (2 ^ 30)%N with 1073741824%N in H4. lia.
    - assert (4 < k)%nat as Hgt by lia. specialize (Hlo Hgt).
      pose proof (pow256_pos (k - 1)). lia. }
  unfold big_len. rewrite N.size_log2 by lia.
  assert (Hlog : (N.log2 x < 8 * N.of_nat k)%N).
  { apply N.log2_lt_pow2; [lia|]. rewrite pow_2_256. exact Hhi. }
  destruct (Nat.eq_dec k 4) as [->|Hne].
  - lia.
  - assert (Hgt : (4 < k)%nat) by lia. specialize (Hlo Hgt).
    assert (Hlog2 : (8 * N.of_nat (k - 1) <= N.log2 x)%N).
    { apply N.log2_le_pow2; [lia|]. rewrite pow_2_256. exact Hlo. }
    lia.
Qed.

Lemma big_len_bounds x : (2 ^ 30 <= x)%N ->
  (4 <= big_len x)%nat /\ (x < 256 ^ N.of_nat (big_len x))%N /\
  ((4 < big_len x)%nat -> (256 ^ N.of_nat (big_len x - 1) <= x)%N).
Proof.
  intros H. change (2 ^ 30)%N with 1073741824%N in H.
  unfold big_len. rewrite N.size_log2 by lia.
  split; [lia|]. split.
  - rewrite <- pow_2_256. apply N.log2_lt_pow2; [lia|]. lia.
  - intros Hgt. rewrite <- pow_2_256. apply N.log2_le_pow2; [lia|]. lia.
Qed.

Lemma mode3_sizes_spec w k : existsb (Nat.eqb k) (mode3_sizes w) = true <->
  (4 <= k <= match w with U8 | U16 => 0 | U32 => 4 | U64 => 8 | U128 => 16 end)%nat.
Proof.
  rewrite existsb_exists. split.
  - intros (y & Hin & Hy). apply Nat.eqb_eq in Hy. subst y.
    destruct w; cbn in Hin; lia.
  - intros H. exists k. split; [|apply Nat.eqb_refl].
    destruct w; cbn; lia.
Qed.

Lemma umax_val w : umax w = match w with
  | U8 => 255 | U16 => 65535 | U32 => 4294967295 | U64 => 18446744073709551615
  | U128 => 340282366920938463463374607431768211455 end%N.
Proof. destruct w; reflexivity. Qed.

Lemma compact_decode_enc w n r : fits w n = true -> compact_decode w (compact_enc n ++ r) = Some n.
Proof.
  intros Hf. apply fits_spec in Hf. unfold compact_enc.
  destruct (N.ltb_spec n 64) as [H1|H1].
  { unfold compact_decode. cbn [app].
    replace ((4 * n) mod 4)%N with 0%N by lia. f_equal. lia. }
  change (2 ^ 14)%N with 16384%N. change (2 ^ 30)%N with 1073741824%N.
  destruct (N.ltb_spec n 16384) as [H2|H2].
  { assert (Hhd : le_bytes 2 (4 * n + 1) ++ r =
       ((4 * n + 1) mod 256)%N :: le_bytes 1 ((4 * n + 1) / 256) ++ r) by reflexivity.
    unfold compact_decode. rewrite Hhd. rewrite <- Hhd.
    rewrite take_le_app by (change (256 ^ N.of_nat 2)%N with 65536%N; lia).
    replace (((4 * n + 1) mod 256) mod 4)%N with 1%N by lia.
    replace ((4 * n + 1) / 4)%N with n by lia. cbv zeta.
    replace ((63 <? n)%N && (n <=? N.min 16383 (umax w))%N)%bool with true by lia.
    reflexivity. }
  destruct (N.ltb_spec n 1073741824) as [H3|H3].
  { assert (Hhd : le_bytes 4 (4 * n + 2) ++ r =
       ((4 * n + 2) mod 256)%N :: le_bytes 3 ((4 * n + 2) / 256) ++ r) by reflexivity.
    unfold compact_decode. rewrite Hhd. rewrite <- Hhd.
    rewrite take_le_app by (change (256 ^ N.of_nat 4)%N with 4294967296%N; lia).
    replace (((4 * n + 2) mod 256) mod 4)%N with 2%N by lia.
    replace ((4 * n + 2) / 4)%N with n by lia. cbv zeta.
    rewrite umax_val in *.
    destruct w; try lia;
    match goal with |- context [if ?c then _ else _] => replace c with true by lia end;
    reflexivity. }
  destruct (big_len_bounds n H3) as (Hb1 & Hb2 & Hb3).
  set (k := big_len n) in *.
  unfold compact_decode. cbn [app].
  replace ((4 * (N.of_nat k - 4) + 3) mod 4)%N with 3%N by lia.
  replace (N.to_nat ((4 * (N.of_nat k - 4) + 3) / 4 + 4)) with k by lia.
  assert (Hk : existsb (Nat.eqb k) (mode3_sizes w) = true).
  { apply mode3_sizes_spec. rewrite umax_val in Hf.
    destruct (Nat.eq_dec k 4) as [->|Hne].
    { destruct w; lia. }
    assert (Hlo := Hb3 ltac:(lia)).
    split; [lia|].
    apply Nat.nlt_ge. intros Hgt.
    destruct w; try lia.
    - pose proof (pow256_mono 4 (k - 1) ltac:(lia)) as Hm.
      change (256 ^ N.of_nat 4)%N with 4294967296%N in Hm. lia.
    - pose proof (pow256_mono 8 (k - 1) ltac:(lia)) as Hm.
      change (256 ^ N.of_nat 8)%N with 18446744073709551616%N in Hm. lia.
    - pose proof (pow256_mono 16 (k - 1) ltac:(lia)) as Hm.
      change (256 ^ N.of_nat 16)%N with 340282366920938463463374607431768211456%N in Hm. lia. }
  rewrite Hk, take_le_app by assumption.
  destruct (Nat.eqb_spec k 4) as [Hk4|Hk4].
  - replace (1073741823 <? n)%N with true by lia. reflexivity.
  - unfold big_min. assert (Hlo := Hb3 ltac:(lia)). pose proof (pow256_pos (k - 1)).
    replace (256 ^ N.of_nat (k - 1) - 1 <? n)%N with true by lia. reflexivity.
Qed.

Lemma compact_decode_inv w l n : is_bytes l -> compact_decode w l = Some n ->
  fits w n = true /\ exists r, l = compact_enc n ++ r.
Proof.
  intros Hb. destruct l as [|prefix rest]; [discriminate|].
  pose proof Hb as Hb'. inversion Hb' as [|? ? Hp Hr]; subst. unfold is_byte in Hp.
  rewrite fits_spec.
  unfold compact_decode.
  assert (Hcases : (prefix mod 4 = 0 \/ prefix mod 4 = 1 \/ prefix mod 4 = 2 \/ prefix mod 4 = 3)%N)
    by lia.
  destruct Hcases as [Hm|[Hm|[Hm|Hm]]]; rewrite Hm.
  - intros H; inversion H; subst n. split.
    + rewrite umax_val. destruct w; lia.
    + exists rest. unfold compact_enc. replace (prefix / 4 <? 64)%N with true by lia.
      cbn [app]. f_equal. lia.
  - destruct (take_le 2 (prefix :: rest)) as [y|] eqn:Ht; [|discriminate].
    apply take_le_inv in Ht; [|assumption]. destruct Ht as (r & Hl & Hy).
    change (256 ^ N.of_nat 2)%N with 65536%N in Hy. cbv zeta.
    assert (Hy1 : (prefix = y mod 256)%N) by (cbn in Hl; inversion Hl; reflexivity).
    destruct ((63 <? y / 4)%N && (y / 4 <=? N.min 16383 (umax w))%N)%bool eqn:Hc; [|discriminate].
    intros H; inversion H; subst n. split; [lia|].
    exists r. unfold compact_enc.
    replace (y / 4 <? 64)%N with false by lia.
    replace (y / 4 <? 2 ^ 14)%N with true by (change (2 ^ 14)%N with 16384%N; lia).
    replace (4 * (y / 4) + 1)%N with y by lia. exact Hl.
  - intros H0.
    assert (H : match take_le 4 (prefix :: rest) with
       | Some y => if ((16383 <? y / 4) && (y / 4 <=? N.min 1073741823 (umax w)))%N%bool
                   then Some (y / 4)%N else None
       | None => None end = Some n) by (destruct w; [discriminate | exact H0 ..]).
    clear H0. revert H.
    destruct (take_le 4 (prefix :: rest)) as [y|] eqn:Ht; [|discriminate].
    apply take_le_inv in Ht; [|assumption]. destruct Ht as (r & Hl & Hy).
    change (256 ^ N.of_nat 4)%N with 4294967296%N in Hy.
    assert (Hy1 : (prefix = y mod 256)%N) by (cbn in Hl; inversion Hl; reflexivity).
    destruct ((16383 <? y / 4)%N && (y / 4 <=? N.min 1073741823 (umax w))%N)%bool eqn:Hc; [|discriminate].
    intros H; inversion H; subst n. split; [lia|].
    exists r. unfold compact_enc.
    replace (y / 4 <? 64)%N with false by lia.
    replace (y / 4 <? 2 ^ 14)%N with false by (change (2 ^ 14)%N with 16384%N; lia).
    replace (y / 4 <? 2 ^ 30)%N with true by (change (2 ^ 30)%N with 1073741824%N; lia).
    replace (4 * (y / 4) + 2)%N with y by lia. exact Hl.
  - set (k := N.to_nat (prefix / 4 + 4)).
    destruct (existsb (Nat.eqb k) (mode3_sizes w)) eqn:Hk; [|discriminate].
    apply mode3_sizes_spec in Hk.
    destruct (take_le k rest) as [x|] eqn:Ht; [|discriminate].
    apply take_le_inv in Ht; [|assumption]. destruct Ht as (r & Hl & Hx).
    assert (Hx30 : (if Nat.eqb k 4 then if (1073741823 <? x)%N then Some x else None
                    else if (big_min k <? x)%N then Some x else None) = Some n ->
       n = x /\ (k = 4%nat -> 2 ^ 30 <= x)%N /\ ((4 < k)%nat -> 256 ^ N.of_nat (k - 1) <= x)%N).
    { change (2 ^ 30)%N with 1073741824%N.
      destruct (Nat.eqb_spec k 4) as [Hk4|Hk4].
      - destruct (N.ltb_spec 1073741823 x) as [Hgt|Hgt]; [|discriminate].
        intros H; inversion H. repeat split; lia.
      - unfold big_min. destruct (N.ltb_spec (256 ^ N.of_nat (k - 1) - 1) x) as [Hgt|Hgt]; [|discriminate].
        intros H; inversion H. repeat split; lia. }
    intros H. destruct (Hx30 H) as (-> & Ha & Hb0). clear Hx30 H.
    assert (Hbl : big_len x = k) by (apply big_len_unique; auto; lia).
    assert (Hbig : (1073741824 <= x)%N).
    { destruct (Nat.eq_dec k 4) as [He|He].
      - apply Ha; exact He.
      - assert (Hb1 := Hb0 ltac:(lia)). pose proof (pow256_mono 4 (k - 1) ltac:(lia)) as Hm4.
        change (256 ^ N.of_nat 4)%N with 4294967296%N in Hm4. lia. }
    split.
    + unfold umax. pose proof (pow256_mono k (usize w)) as Hmono.
      assert (Hle : (k <= usize w)%nat) by (destruct w; cbn [usize]; lia).
      specialize (Hmono Hle). lia.
    + exists r. unfold compact_enc.
      replace (x <? 64)%N with false by lia.
      replace (x <? 2 ^ 14)%N with false by (change (2 ^ 14)%N with 16384%N; lia).
      replace (x <? 2 ^ 30)%N with false by (change (2 ^ 30)%N with 1073741824%N; lia).
      rewrite Hbl. cbn [app]. rewrite Hl at 1. f_equal. unfold k. lia.
Qed.

Lemma compact_enc_nonempty n : compact_enc n <> [].
Proof.
  unfold compact_enc.
  destruct (n <? 64)%N; [discriminate|]. destruct (n <? 2 ^ 14)%N; [discriminate|].
  destruct (n <? 2 ^ 30)%N; discriminate.
Qed.

Lemma compact_enc_length w n : fits w n = true -> (1 <= List.length (compact_enc n) <= 17)%nat.
Proof.
  intros Hf. apply fits_spec in Hf. unfold compact_enc.
  destruct (N.ltb_spec n 64) as [H1|H1]; [cbn; lia|].
  destruct (N.ltb_spec n (2 ^ 14)) as [H2|H2]; [cbn; lia|].
  destruct (N.ltb_spec n (2 ^ 30)) as [H3|H3]; [cbn; lia|].
  cbn [List.length]. rewrite le_bytes_length.
  destruct (big_len_bounds n H3) as (Hb1 & Hb2 & Hb3).
  destruct (Nat.le_gt_cases (big_len n) 16) as [Hle|Hgt]; [lia|].
  specialize (Hb3 ltac:(lia)).
  pose proof (pow256_mono 16 (big_len n - 1) ltac:(lia)) as Hm.
  assert (umax w < 256 ^ N.of_nat 16)%N by (rewrite umax_val; destruct w; reflexivity).
  lia.
Qed.

Lemma compact_enc_is_bytes n : (n < 256 ^ 67)%N -> is_bytes (compact_enc n).
Proof.
  intros Hn. unfold compact_enc.
  destruct (N.ltb_spec n 64) as [H1|H1].
  { constructor; [unfold is_byte; lia | constructor]. }
  destruct (N.ltb_spec n (2 ^ 14)) as [H2|H2]; [apply le_bytes_is_bytes|].
  destruct (N.ltb_spec n (2 ^ 30)) as [H3|H3]; [apply le_bytes_is_bytes|].
  constructor; [|apply le_bytes_is_bytes].
  destruct (big_len_bounds n H3) as (Hb1 & Hb2 & Hb3).
  unfold is_byte.
  destruct (Nat.le_gt_cases (big_len n) 67) as [Hle|Hgt]; [lia|].
  specialize (Hb3 ltac:(lia)).
  pose proof (pow256_mono 67 (big_len n - 1) ltac:(lia)) as Hm.
  change (N.of_nat 67) with 67%N in Hm.
  lia.
Qed.

Lemma umax_lt_67 w : (umax w < 256 ^ 67)%N.
Proof. destruct w; reflexivity. Qed.

Lemma compact_enc_fits_is_bytes w n : fits w n = true -> is_bytes (compact_enc n).
Proof.
  intros H. apply compact_enc_is_bytes. apply fits_spec in H. pose proof (umax_lt_67 w). lia.
Qed.

(** Two canonical encodings, one a prefix of the other's continuation, are equal. *)
Lemma compact_enc_prefix w n m r s : fits w n = true -> fits w m = true ->
  compact_enc n ++ r = compact_enc m ++ s -> n = m.
Proof.
  intros Hn Hm H.
  pose proof (compact_decode_enc w n r Hn) as H1.
  pose proof (compact_decode_enc w m s Hm) as H2. rewrite H in H1. congruence.
Qed.

(** ** [find_compact] on byte slices *)

Section Find.
Context {E : Type}.
Variable data : bytes.
Hypothesis Hbytes : is_bytes data.

Lemma slice_prefix p n k : (n <= k)%nat -> slice data p n = firstn n (slice data p k).
Proof. intros H. unfold slice. rewrite firstn_firstn. f_equal. lia. Qed.

(** The loop from [i], when shorter slices were already refused. *)
Lemma find_loop_spec w p k : forall i q (e : E),
  (p + i + k = List.length data)%nat ->
  match find_loop w (slice_buffer data) p k i q e with
  | (Ok (Some (n, p')), q', e') =>
      q' = q /\ e' = e /\ fits w n = true /\
      p' = (p + List.length (compact_enc n))%nat /\
      (i < List.length (compact_enc n))%nat /\
      (p' <= List.length data)%nat /\
      slice data p (List.length (compact_enc n)) = compact_enc n \/
      (exists j, (j <= i)%nat /\ compact_decode w (slice data p j) <> None)
  | (Ok None, q', e') =>
      q' = q /\ e' = e /\
      forall j, (i < j)%nat -> (p + j <= List.length data)%nat -> (j <= 18)%nat ->
        compact_decode w (slice data p j) = None
  | _ => False
  end.
Proof.
  induction k as [|k IH]; intros i q e Hlen; cbn [find_loop].
  - cbn. repeat split; intros; lia.
  - destruct (Nat.ltb_spec MAX_COMPACT_LEN i) as [Hi|Hi].
    { cbn. unfold MAX_COMPACT_LEN in Hi. repeat split; intros; lia. }
    unfold bind at 1. rewrite read_slice_do by lia.
    rewrite Nat2N.id.
    destruct (compact_decode w (slice data p (i + 1))) as [n|] eqn:Hd.
    + cbn [ret]. 
      destruct (compact_decode_inv w _ n (is_bytes_slice _ _ _ Hbytes) Hd) as (Hf & r & Hr).
      assert (Hl : (List.length (compact_enc n) <= i + 1)%nat).
      { apply (f_equal (@List.length N)) in Hr. rewrite app_length, slice_length in Hr; lia. }
      destruct (Nat.eq_dec (List.length (compact_enc n)) (i + 1)) as [Heq|Hne].
      * left. rewrite Heq. 
        assert (r = []).
        { apply (f_equal (@List.length N)) in Hr. rewrite app_length, slice_length in Hr by lia.
          destruct r; auto. cbn in Hr. lia. }
        subst r. rewrite app_nil_r in Hr. repeat split; auto; try lia.
      * right. exists (List.length (compact_enc n)). split; [lia|].
        rewrite (slice_prefix p _ (i + 1)) by lia. rewrite Hr, firstn_app_exact.
        pose proof (compact_decode_enc w n [] Hf) as Hn. rewrite app_nil_r in Hn.
        rewrite Hn. discriminate.
    + specialize (IH (i + 1)%nat q e ltac:(lia)).
      destruct (find_loop w (slice_buffer data) p k (i + 1) q e) as [[[[[n p']|]|x| |] q'] e']; auto.
      * destruct IH as [(-> & -> & Hf & Hp & Hi1 & Hle & Hs)|(j & Hj & Hjd)].
        -- left. repeat split; auto. lia.
        -- destruct (Nat.eq_dec j (i + 1)) as [->|Hne]; [congruence|].
           right. exists j. split; [lia|exact Hjd].
      * destruct IH as (-> & -> & IH). repeat split; auto.
        intros j Hj1 Hj2 Hj3. destruct (Nat.eq_dec j (i + 1)) as [->|Hne]; auto.
        apply IH; lia.
Qed.

Lemma find_loop_total w p q (e : E) : (p <= List.length data)%nat ->
  match find_loop w (slice_buffer data) p (List.length data - p) 0 q e with
  | (Ok (Some (n, p')), q', e') =>
      q' = q /\ e' = e /\ fits w n = true /\
      p' = (p + List.length (compact_enc n))%nat /\ (p' <= List.length data)%nat /\
      slice data p (List.length (compact_enc n)) = compact_enc n
  | (Ok None, q', e') =>
      q' = q /\ e' = e /\
      forall n, fits w n = true -> (p + List.length (compact_enc n) <= List.length data)%nat ->
        slice data p (List.length (compact_enc n)) <> compact_enc n
  | _ => False
  end.
Proof.
  intros Hp. pose proof (find_loop_spec w p (List.length data - p) 0 q e ltac:(lia)) as H.
  destruct (find_loop w (slice_buffer data) p (List.length data - p) 0 q e)
    as [[[[[n p']|]|x| |] q'] e']; auto.
  - destruct H as [(-> & -> & Hf & Hp' & Hi1 & Hle & Hs)|(j & Hj & Hjd)].
    + repeat split; auto.
    + assert (j = 0%nat) by lia. subst j. rewrite slice_0 in Hjd. cbn in Hjd. congruence.
  - destruct H as (-> & -> & H). repeat split; auto.
    intros n Hf Hle Hs.
    pose proof (compact_enc_length w n Hf) as Hl.
    specialize (H (List.length (compact_enc n)) ltac:(lia) Hle ltac:(lia)). rewrite Hs in H.
    pose proof (compact_decode_enc w n [] Hf) as Hn. rewrite app_nil_r in Hn. congruence.
Qed.

Lemma slice_buffer_len : total_len (@slice_buffer E data) = List.length data.
Proof. reflexivity. Qed.

Lemma find_compact_ok w p q (e : E) n p' q' e' :
  find_compact w (slice_buffer data) p q e = (Ok (n, p'), q', e') <->
  (q' = q /\ e' = e /\ fits w n = true /\
   p' = (p + List.length (compact_enc n))%nat /\ (p' <= List.length data)%nat /\
   slice data p (List.length (compact_enc n)) = compact_enc n).
Proof.
  unfold find_compact. rewrite slice_buffer_len.
  destruct (Nat.ltb_spec (List.length data) p) as [H|H].
  { split; [discriminate|]. intros (_ & _ & _ & -> & Hle & _). lia. }
  pose proof (find_loop_total w p q e H) as Hl. unfold bind.
  destruct (find_loop w (slice_buffer data) p (List.length data - p) 0 q e)
    as [[[[[n1 p1]|]|x| |] q1] e1]; try contradiction.
  - destruct Hl as (-> & -> & Hf & Hp1 & Hle & Hs). cbn [ret]. split.
    + intros Heq; inversion Heq; subst. repeat split; auto.
    + intros (-> & -> & Hf2 & Hp2 & Hle2 & Hs2).
      assert (n = n1).
      { assert (Hsk : forall m, (p + List.length (compact_enc m) <= List.length data)%nat ->
                 slice data p (List.length (compact_enc m)) = compact_enc m ->
                 exists r, skipn p data = compact_enc m ++ r).
        { intros m _ Hm. exists (skipn (List.length (compact_enc m)) (skipn p data)).
          rewrite <- Hm at 1. unfold slice. rewrite firstn_skipn. reflexivity. }
        destruct (Hsk n) as (r1 & Hr1); [lia|auto|]. destruct (Hsk n1) as (r2 & Hr2); [lia|auto|].
        apply (compact_enc_prefix w n n1 r1 r2); auto. congruence. }
      subst n1. subst p1 p'. reflexivity.
  - destruct Hl as (-> & -> & Hn). cbn [fail]. split; [discriminate|].
    intros (_ & _ & Hf & Hp & Hle & Hs). exfalso. apply (Hn n); auto. lia.
Qed.

(** All outcomes. *)
Lemma find_compact_total w p q (e : E) :
  (exists n p', find_compact w (slice_buffer data) p q e = (Ok (n, p'), q, e)) \/
  (exists x, find_compact w (slice_buffer data) p q e = (Err x, q, e) /\
    (x = NoCompact p \/ (x = PBuffer (OutOfRange p (List.length data)) /\ (List.length data < p)%nat)) /\
    forall n, fits w n = true -> (p + List.length (compact_enc n) <= List.length data)%nat ->
        slice data p (List.length (compact_enc n)) <> compact_enc n).
Proof.
  unfold find_compact. rewrite slice_buffer_len.
  destruct (Nat.ltb_spec (List.length data) p) as [H|H].
  { right. eexists. split; [reflexivity|]. split; [right; auto|]. intros n _ Hl. lia. }
  pose proof (find_loop_total w p q e H) as Hl. unfold bind.
  destruct (find_loop w (slice_buffer data) p (List.length data - p) 0 q e)
    as [[[[[n1 p1]|]|x| |] q1] e1]; try contradiction.
  - destruct Hl as (-> & -> & _). left. exists n1, p1. reflexivity.
  - destruct Hl as (-> & -> & Hn). right. eexists. split; [reflexivity|]. split; [left; auto|exact Hn].
Qed.

Lemma get_compact_ok w p (e : E) n p' e' :
  get_compact w (slice_buffer data) p e = (Ok n, p', e') <->
  (e' = e /\ fits w n = true /\
   p' = (p + List.length (compact_enc n))%nat /\ (p' <= List.length data)%nat /\
   slice data p (List.length (compact_enc n)) = compact_enc n).
Proof.
  unfold get_compact, get_pos, set_pos, bind, ret.
  destruct (find_compact w (slice_buffer data) p p e) as [[[[n1 p1]|x| |] q1] e1] eqn:Hf.
  - pose proof (proj1 (find_compact_ok w p p e n1 p1 q1 e1) Hf) as (-> & -> & H).
    cbn [fst snd]. split.
    + intros Heq; inversion Heq; subst. repeat split; tauto.
    + intros (-> & H2).
      assert (Hx : find_compact w (slice_buffer data) p p e = (Ok (n, p'), p, e))
        by (apply find_compact_ok; tauto).
      rewrite Hf in Hx. inversion Hx; subst. reflexivity.
  - split; [discriminate|]. intros (-> & H2).
    assert (Hx : find_compact w (slice_buffer data) p p e = (Ok (n, p'), p, e))
        by (apply find_compact_ok; tauto).
    rewrite Hf in Hx. discriminate.
  - destruct (find_compact_total w p p e) as [(? & ? & Hx)|(? & Hx & _)]; rewrite Hf in Hx; discriminate.
  - destruct (find_compact_total w p p e) as [(? & ? & Hx)|(? & Hx & _)]; rewrite Hf in Hx; discriminate.
Qed.

Lemma get_compact_total w p (e : E) :
  (exists n, get_compact w (slice_buffer data) p e =
             (Ok n, (p + List.length (compact_enc n))%nat, e)) \/
  (exists x, get_compact w (slice_buffer data) p e = (Err x, p, e) /\
    (x = NoCompact p \/ (x = PBuffer (OutOfRange p (List.length data)) /\ (List.length data < p)%nat)) /\
    forall n, fits w n = true -> (p + List.length (compact_enc n) <= List.length data)%nat ->
        slice data p (List.length (compact_enc n)) <> compact_enc n).
Proof.
  destruct (find_compact_total w p p e) as [(n & p' & Hx)|(x & Hx & Hr)].
  - left. exists n. apply get_compact_ok. apply find_compact_ok in Hx. 
    destruct Hx as (_ & _ & Hf & -> & Hle & Hs). repeat split; auto.
  - right. exists x. split; [|exact Hr].
    unfold get_compact, get_pos, bind. rewrite Hx. reflexivity.
Qed.

End Find.

(** ** The property statements *)

Lemma compact_round_trip : forall (E : Type) (w : uwidth) (n : N) (pre post : bytes) (p : nat) (e : E),
  is_bytes (pre ++ post) -> fits w n = true ->
  let data := pre ++ compact_enc n ++ post in
  let next := List.length (pre ++ compact_enc n) in
  find_compact w (slice_buffer data) (List.length pre) p e = (Ok (n, next), p, e) /\
  get_compact w (slice_buffer data) (List.length pre) e = (Ok n, next, e).
Proof.
  intros E w n pre post p e Hb Hf data next.
  apply is_bytes_app in Hb. destruct Hb as [Hb1 Hb2].
  assert (Hd : is_bytes data).
  { apply is_bytes_app; split; auto. apply is_bytes_app; split; auto.
    apply (compact_enc_fits_is_bytes w), Hf. }
  assert (Hn : next = (List.length pre + List.length (compact_enc n))%nat)
    by (unfold next; apply app_length).
  assert (Hl : (next <= List.length data)%nat)
    by (unfold data; rewrite Hn, !app_length; lia).
  assert (Hs : slice data (List.length pre) (List.length (compact_enc n)) = compact_enc n)
    by (apply slice_mid).
  split; [apply find_compact_ok|apply get_compact_ok]; auto; repeat split; auto.
Qed.

Lemma compact_canonical : forall (E : Type) (w : uwidth) (data : bytes) (p : nat) (e : E),
  is_bytes data ->
  (exists n post, skipn p data = compact_enc n ++ post /\ fits w n = true /\
     get_compact w (slice_buffer data) p e = (Ok n, (p + List.length (compact_enc n))%nat, e) /\
     (p + List.length (compact_enc n) <= List.length data)%nat)
  \/
  ((forall n post, skipn p data = compact_enc n ++ post -> fits w n = false) /\
   exists x, get_compact w (slice_buffer data) p e = (Err x, p, e) /\
     (x = NoCompact p \/ x = PBuffer (OutOfRange p (List.length data)) /\ (List.length data < p)%nat)).
Proof.
  intros E w data p e Hb.
  destruct (get_compact_total data Hb w p e) as [(n & H)|(x & H & Hx & Hn)].
  - left. pose proof H as H0. apply get_compact_ok in H0; auto.
    destruct H0 as (_ & Hf & _ & Hle & Hs).
    exists n, (skipn (List.length (compact_enc n)) (skipn p data)). repeat split; auto.
    rewrite <- Hs at 1. unfold slice. rewrite firstn_skipn. reflexivity.
  - right. split; [|exists x; auto].
    intros n post Hs. destruct (fits w n) eqn:Hf; auto. exfalso.
    apply (Hn n Hf).
    + apply (f_equal (@List.length N)) in Hs. rewrite skipn_length, app_length in Hs.
      pose proof (compact_enc_length w n Hf). lia.
    + unfold slice. rewrite Hs. apply firstn_app_exact.
Qed.
