(** C43: bit vectors over u64 on 32-bit targets. *)
From Coq Require Import Lia ZifyBool ZifyNat ZifyN.
From Verif Require Import Base Compact Types Indicators Decode Patch32 Spec SpecKinds SpecPatch ProofBase ProofCompact ProofLeaf
  ProofRead ProofKinds ProofKinds2.
Local Open Scope list_scope.

(** ** Halves *)

Lemma halves_bits o x : elem_bits o 64 x = elem_bits o 32 (first_half o x) ++ elem_bits o 32 (second_half o x).
Proof.
  apply nth_ext with (d := false) (d' := false).
  { rewrite app_length, !elem_bits_length. reflexivity. }
  rewrite elem_bits_length. intros i Hi. rewrite nth_elem_bits by lia.
  destruct (Nat.lt_ge_cases i 32) as [H|H].
  - rewrite app_nth1 by (rewrite elem_bits_length; lia). rewrite nth_elem_bits by lia.
    destruct o; cbn [first_half].
    + rewrite N.mod_pow2_bits_low by lia. reflexivity.
    + rewrite N.div_pow2_bits. f_equal. lia.
  - rewrite app_nth2 by (rewrite elem_bits_length; lia). rewrite elem_bits_length.
    rewrite nth_elem_bits by lia.
    destruct o; cbn [second_half].
    + rewrite N.div_pow2_bits. f_equal. lia.
    + rewrite N.mod_pow2_bits_low by lia. f_equal. lia.
Qed.

Lemma half_zero o x : forallb negb (elem_bits o 32 x) = true -> (x < 2 ^ 32)%N -> x = 0%N.
Proof.
  intros H Hx. apply N.bits_inj_0. intros i.
  destruct (N.lt_ge_cases i 32) as [Hi|Hi].
  - rewrite forallb_forall in H.
    assert (Hin : In (N.testbit x i) (elem_bits o 32 x)).
    { pose proof (nth_elem_bits o 32 x (match o with Lsb0 => N.to_nat i | Msb0 => 31 - N.to_nat i end)) as Hn.
      replace (N.testbit x i) with (nth (match o with Lsb0 => N.to_nat i | Msb0 => 31 - N.to_nat i end) (elem_bits o 32 x) false).
      - apply nth_In. rewrite elem_bits_length. destruct o; lia.
      - rewrite Hn by (destruct o; lia). f_equal. destruct o; lia. }
    apply H in Hin. destruct (N.testbit x i); [discriminate|reflexivity].
  - destruct (N.eq_dec x 0) as [->|Hn]; [apply N.bits_0|].
    apply N.bits_above_log2. apply N.log2_lt_pow2; [lia|].
    eapply N.lt_le_trans; [exact Hx|]. apply N.pow_le_mono_r; lia.
Qed.

Lemma zero_half o : forallb negb (elem_bits o 32 0) = true.
Proof. destruct o; reflexivity. Qed.

Lemma le8_first x : le_val (firstn 4 (le_bytes 8 x)) = (x mod 2 ^ 32)%N.
Proof.
  cbn [le_bytes firstn le_val]. change (2 ^ 32)%N with (256 * (256 * (256 * 256)))%N.
  rewrite !N.div_div by lia. pose proof (N.div_mod x 256). 
  rewrite (N.mod_mul_r x 256 (256 * (256 * 256))), (N.mod_mul_r (x / 256) 256 (256 * 256)),
    (N.mod_mul_r (x / 256 / 256) 256 256) by lia.
  rewrite !N.div_div by lia. lia.
Qed.

Lemma le8_second x : (x < 2 ^ 64)%N -> le_val (skipn 4 (le_bytes 8 x)) = (x / 2 ^ 32)%N.
Proof.
  intros H. change (skipn 4 (le_bytes 8 x)) with (le_bytes 4 (x / 256 / 256 / 256 / 256)%N).
  rewrite !N.div_div by lia. change (256 * (256 * (256 * 256)))%N with (2 ^ 32)%N.
  change (256 * 256 * 256 * 256)%N with (2 ^ 32)%N.
  rewrite le_val_le_bytes; [reflexivity|].
  change (256 ^ N.of_nat 4)%N with (2 ^ 32)%N. apply N.div_lt_upper_bound; [lia|].
  change (2 ^ 32 * 2 ^ 32)%N with (2 ^ 64)%N. exact H.
Qed.

Lemma fits64 x : fits U64 x = true -> (x < 2 ^ 64)%N.
Proof. rewrite fits_pow. intros H. apply N.ltb_lt in H. exact H. Qed.

(** What [reform] makes of the last element. *)
Definition last_halves (o : bit_order) (x : N) : list N :=
  if (first_half o x =? 0)%N then [match o with Lsb0 => 0 | Msb0 => x mod 2 ^ 32 end%N]
  else [first_half o x; second_half o x].

Lemma reform_last o xs x : forallb (fits U64) (xs ++ [x]) = true ->
  reform o (map (le_bytes 8) (xs ++ [x])) =
  flat_map (fun y => [first_half o y; second_half o y]) xs ++ last_halves o x.
Proof.
  induction xs as [|y xs IH]; intros Hf; cbn [app forallb] in Hf; apply andb_true_iff in Hf; destruct Hf as [Hy Hf];
    pose proof (fits64 _ Hy) as Hb.
  - cbn [app map flat_map]. unfold last_halves. destruct o; cbn [reform reform_vec_lsb0 reform_vec_msb0 first_half second_half].
    + rewrite le8_first, le8_second by exact Hb. destruct (N.eqb_spec (x mod 2 ^ 32) 0) as [->|Hn]; reflexivity.
    + rewrite le_val_le_bytes by exact Hb. destruct (N.eqb_spec (x / 2 ^ 32) 0) as [->|Hn]; reflexivity.
  - specialize (IH Hf). cbn [app map flat_map].
    assert (Hr : exists a l, map (le_bytes 8) (xs ++ [x]) = a :: l).
    { destruct xs; cbn [app map]; eauto. }
    destruct Hr as (a & l & Hr). rewrite Hr in *. 
    destruct o; cbn [reform first_half second_half] in *.
    + change (reform_vec_lsb0 (le_bytes 8 y :: a :: l)) with
        (le_val (firstn 4 (le_bytes 8 y)) ::
         (if negb (le_val (firstn 4 (le_bytes 8 y)) =? 0)%N || true then [le_val (skipn 4 (le_bytes 8 y))] else [])
         ++ reform_vec_lsb0 (a :: l)).
      rewrite orb_true_r, le8_first, le8_second, IH by exact Hb. reflexivity.
    + change (reform_vec_msb0 (le_bytes 8 y :: a :: l)) with
        ((if negb (le_val (le_bytes 8 y) / 2 ^ 32 =? 0)%N || true then [(le_val (le_bytes 8 y) / 2 ^ 32)%N] else [])
         ++ (le_val (le_bytes 8 y) mod 2 ^ 32)%N :: reform_vec_msb0 (a :: l)).
      rewrite orb_true_r, le_val_le_bytes, IH by exact Hb. reflexivity.
Qed.

Lemma flat_halves o xs : flat_map (elem_bits o 32) (flat_map (fun y => [first_half o y; second_half o y]) xs)
  = flat_map (elem_bits o 64) xs.
Proof.
  induction xs as [|x xs IH]; [reflexivity|]. cbn [flat_map app]. rewrite IH, halves_bits, app_assoc. reflexivity.
Qed.

Lemma firstn_pad {A} (a b c : list A) n : (n <= List.length a + List.length b)%nat ->
  firstn n (a ++ b ++ c) = firstn n (a ++ b).
Proof.
  intros H. rewrite app_assoc, firstn_app.
  replace (n - List.length (a ++ b))%nat with 0%nat by (rewrite app_length; lia).
  rewrite firstn_O, app_nil_r. reflexivity.
Qed.

(** ** The exact outcome *)

Lemma read_chunks_ok data p : forall k q err,
  (p + 8 * k <= List.length data)%nat ->
  read_chunks (@slice_buffer unit data) p err k q tt = (Ok (chunks k 8 (slice data p (8 * k))), q, tt).
Proof.
  intros k. revert p. induction k as [|k IH]; intros p q err H; [reflexivity|].
  cbn [read_chunks]. unfold bind at 1, catch. rewrite read_slice_do by lia.
  change (N.to_nat 8) with 8%nat. rewrite slice_length by lia. cbn [Nat.eqb].
  unfold bind. rewrite IH by lia. unfold ret. do 3 f_equal.
  cbn [chunks]. f_equal.
  - unfold slice. rewrite firstn_firstn. f_equal. lia.
  - f_equal. unfold slice. rewrite skipn_firstn_comm, skipn_skipn. f_equal; [lia|]. f_equal. lia.
Qed.

Lemma read_chunks_err data err : forall k p q,
  (List.length data < p + 8 * k)%nat -> (0 < k)%nat ->
  read_chunks (@slice_buffer unit data) p err k q tt = (Err err, q, tt).
Proof.
  induction k as [|k IH]; intros p q H Hk; [lia|].
  cbn [read_chunks]. unfold bind at 1, catch.
  destruct (read_slice (slice_buffer data) p 8 q tt) as [[[l|y| |] q1] []] eqn:Hr.
  - apply read_slice_ok in Hr. destruct Hr as (-> & _ & Hle & ->).
    change (N.to_nat 8) with 8%nat. rewrite slice_length by lia. cbn [Nat.eqb].
    unfold bind. rewrite IH by lia. reflexivity.
  - unfold read_slice, slice_buffer, rd, slice_rd in Hr.
    destruct (Nat.ltb (List.length data) p); [inversion Hr; reflexivity|].
    destruct (N.ltb _ _) in Hr; inversion Hr; reflexivity.
  - exfalso. unfold read_slice, slice_buffer, rd, slice_rd in Hr.
    destruct (Nat.ltb (List.length data) p); [discriminate|].
    destruct (N.ltb _ _) in Hr; discriminate.
  - exfalso. unfold read_slice, slice_buffer, rd, slice_rd in Hr.
    destruct (Nat.ltb (List.length data) p); [discriminate|].
    destruct (N.ltb _ _) in Hr; discriminate.
Qed.

Lemma store64 n : store_len U64 n = ((n + 63) / 64)%N.
Proof. unfold store_len. cbn [usize]. f_equal. lia. Qed.

Lemma stands_has data pos n elems : stands data pos n elems ->
  has data pos (compact_enc n ++ flat_map (le_bytes 8) elems) /\ (pos + stands_length n elems <= List.length data)%nat.
Proof.
  intros (_ & _ & _ & post & H).
  assert (Hh : has data pos (compact_enc n ++ flat_map (le_bytes 8) elems)).
  { unfold has, slice. rewrite H, app_assoc, firstn_app_exact. reflexivity. }
  split; [exact Hh|].
  destruct (has_len _ _ _ Hh) as [He|Hl].
  - apply app_eq_nil in He. destruct He as [He _]. exfalso. exact (compact_enc_nonempty n He).
  - unfold stands_length. rewrite app_length, flat_le_bytes_length in Hl. exact Hl.
Qed.

Lemma patch_exact data o pos n elems : is_bytes data -> stands data pos n elems ->
  patch_bitvec_u64 o (@slice_buffer unit data) pos tt =
    (patch_outcome o n elems, (pos + stands_length n elems)%nat, tt).
Proof.
  intros Hb Hst. pose proof (stands_has _ _ _ _ Hst) as [Hh Hle].
  destruct Hst as (Hf & Hfe & Hlen & _). unfold stands_length in *.
  apply has_app in Hh. destruct Hh as [H1 H2].
  unfold patch_bitvec_u64, bitvec_positions. unfold get_pos, bind at 1. unfold bind at 1. unfold bind at 1.
  rewrite (proj2 (find_compact_ok data Hb U32 pos pos tt n _ pos tt)) by (repeat split; eauto; lia).
  unfold ret at 1. 
  change 8%N with (N.of_nat (usize U64)). rewrite bitvec_elements_store, store64, <- Hlen, Nat2N.id.
  change (N.of_nat (usize U64)) with 8%N. change (usize U64) with 8%nat.
  unfold bind at 1. rewrite read_chunks_ok by lia.
  rewrite <- flat_le_bytes_length. unfold has in H2. rewrite H2, chunks_le_bytes by lia.
  replace (pos + N.to_nat (N.of_nat (pos + List.length (compact_enc n) - pos) + N.of_nat (List.length elems) * 8))%nat
    with (pos + (List.length (compact_enc n) + 8 * List.length elems))%nat by lia.
  unfold bind, set_pos.
  assert (Hn : (n <= 64 * N.of_nat (List.length elems))%N).
  { rewrite Hlen. pose proof (N.div_mod (n + 63) 64). lia. }
  assert (Hlast : elems = [] \/ exists xs x, elems = xs ++ [x]).
  { clear. destruct elems using rev_ind; eauto. }
  rewrite flat_le_bytes_length.
  match goal with |- context [(pos + ?k)%nat] => generalize (pos + k)%nat; intros pend end.
  destruct Hlast as [->|(xs & x & ->)].
  - cbn in Hn. assert (n = 0%N) by lia. subst n. cbn [map]. destruct o; reflexivity.
  - rewrite reform_last by exact Hfe. rewrite flat_map_app, flat_halves.
    unfold patch_outcome. rewrite rev_app_distr. cbn [rev app]. rewrite rev_length, rev_involutive.
    unfold last_halves. rewrite app_length in Hn. cbn [List.length] in Hn.
    destruct (N.eqb_spec (first_half o x) 0) as [Hz|Hz]; cbn [negb].
    + assert (Hmv : elem_bits o 32 (match o with Lsb0 => 0 | Msb0 => x mod 2 ^ 32 end)%N
                    = elem_bits o 32 (first_half o (moved o x))).
      { destruct o; cbn [moved first_half] in *; [rewrite Hz; reflexivity|].
        f_equal. rewrite N.div_mul by lia. apply N.div_small_iff in Hz; [|lia]. apply N.mod_small. exact Hz. }
      cbn [flat_map]. rewrite Hmv, app_nil_r, app_length, flat_bits_length, elem_bits_length.
      replace (N.of_nat (64 * List.length xs + 32)) with (64 * N.of_nat (List.length xs) + 32)%N by lia.
      destruct (N.ltb_spec (64 * N.of_nat (List.length xs) + 32) n) as [Hl|Hl]; [reflexivity|].
      unfold ret. do 3 f_equal. rewrite <- the_bits_spec.
      * change (8 * usize U64)%nat with 64%nat. rewrite flat_map_app. cbn [flat_map]. rewrite app_nil_r.
        rewrite (halves_bits o (moved o x)). symmetry. apply firstn_pad.
        rewrite flat_bits_length, elem_bits_length. lia.
      * rewrite app_length. cbn [usize List.length]. lia.
    + assert (He : flat_map (elem_bits o 64) xs ++ flat_map (elem_bits o 32) [first_half o x; second_half o x]
               = flat_map (elem_bits o 64) (xs ++ [x])).
      { rewrite flat_map_app. cbn [flat_map]. rewrite !app_nil_r, <- halves_bits. reflexivity. }
      rewrite He. rewrite flat_bits_length, app_length. cbn [List.length].
      replace (N.of_nat (64 * (List.length xs + 1)) <? n)%N with false by lia.
      unfold ret. do 3 f_equal. apply (the_bits_spec U64 o n (xs ++ [x])).
      rewrite app_length. cbn [usize List.length]. lia.
Qed.

(** Anything else is refused. *)
Lemma patch_refuses data o pos : is_bytes data -> (forall n elems, ~ stands data pos n elems) ->
  exists y, patch_bitvec_u64 o (@slice_buffer unit data) pos tt = (Err y, pos, tt).
Proof.
  intros Hb Hno. unfold patch_bitvec_u64, bitvec_positions. unfold get_pos, bind at 1. unfold bind at 1. unfold bind at 1.
  destruct (find_compact_total data Hb U32 pos pos tt) as [(n & p' & Hx)|(y & Hx & _)].
  2:{ rewrite Hx. eauto. }
  rewrite Hx. apply (find_compact_ok data Hb) in Hx. destruct Hx as (_ & _ & Hf & Hp & Hle & Hs).
  unfold ret at 1. change 8%N with (N.of_nat (usize U64)). rewrite bitvec_elements_store, store64.
  change (N.of_nat (usize U64)) with 8%N. change (usize U64) with 8%nat.
  remember (N.to_nat ((n + 63) / 64)) as k eqn:Hk. unfold bind at 1.
  destruct (Nat.lt_ge_cases (List.length data) (p' + 8 * k)) as [Hsh|Hok].
  - destruct k as [|k']; [exfalso; lia|]. rewrite read_chunks_err by lia. eauto.
  - exfalso. remember (slice data p' (8 * k)) as l eqn:Hl.
    assert (Hhl : has data p' l) by (subst l; apply has_slice; lia).
    destruct (chunks_inv k 8 l) as (Hc1 & Hc2 & Hc3).
    { exact (has_is_bytes _ _ _ Hb Hhl). }
    { subst l. rewrite slice_length by lia. lia. }
    apply (Hno n (map le_val (chunks k 8 l))). split; [exact Hf|]. split.
    { rewrite <- Hc3. apply forallb_ext. intros x. apply fits_pow. }
    split; [rewrite map_length, Hc2; lia|].
    rewrite <- Hc1. exists (skipn (List.length (compact_enc n) + List.length l) (skipn pos data)).
    assert (Hh : has data pos (compact_enc n ++ l)) by (apply has_app; split; [exact Hs|rewrite <- Hp; exact Hhl]).
    unfold has, slice in Hh. rewrite app_assoc.
    rewrite <- (firstn_skipn (List.length (compact_enc n ++ l)) (skipn pos data)) at 1. rewrite Hh, app_length. reflexivity.
Qed.

(** ** Bit strings *)

Lemma nth_skipn_plus {A} (l : list A) d : forall k i, nth i (skipn k l) d = nth (k + i) l d.
Proof.
  induction l as [|x l IH]; intros [|k] i; cbn [skipn Nat.add]; try reflexivity; [destruct i; reflexivity|].
  apply IH.
Qed.

Lemma stands_bits o bits pre post : fits U32 (N.of_nat (List.length bits)) = true ->
  stands (pre ++ bits_enc U64 o bits ++ post) (List.length pre) (N.of_nat (List.length bits)) (pack U64 o bits).
Proof.
  intros Hf. split; [exact Hf|]. split; [apply pack_fits|]. split.
  { rewrite pack_length. cbn [usize]. lia. }
  exists post. unfold bits_enc. rewrite skipn_app_exact, <- app_assoc. reflexivity.
Qed.

(** The last element of a packed bit string. *)
Lemma pack_last o bits : bits <> [] -> exists xs x,
  pack U64 o bits = xs ++ [x] /\ List.length xs = ((List.length bits - 1) / 64)%nat /\
  fits U64 x = true /\
  forall i, (i < 64)%nat -> nth i (elem_bits o 64 x) false = nth i (last_group bits) false.
Proof.
  intros Hne. assert (Hl : (0 < List.length bits)%nat) by (destruct bits; [congruence|cbn; lia]).
  pose proof (pack_fits U64 o bits) as Hpf.
  unfold pack, last_group in *. change (8 * usize U64)%nat with 64%nat in *.
  remember ((List.length bits - 1) / 64)%nat as j eqn:Hj.
  replace ((List.length bits + 64 - 1) / 64)%nat with (S j) in *
    by (subst j; replace (List.length bits + 64 - 1)%nat with ((List.length bits - 1) + 1 * 64)%nat by lia;
        rewrite Nat.div_add by lia; lia).
  rewrite (seq_S j), map_app. rewrite (seq_S j), map_app in Hpf. cbn [map Nat.add] in *.
  eexists _, _. split; [reflexivity|]. split; [rewrite map_length, seq_length; reflexivity|].
  split.
  { rewrite forallb_app in Hpf. apply andb_true_iff in Hpf. destruct Hpf as [_ Hpf]. cbn [forallb] in Hpf.
    apply andb_true_iff in Hpf. apply Hpf. }
  intros i Hi. rewrite nth_elem_bits by lia. rewrite number_testbit, nth_skipn_plus.
  destruct o; (rewrite nth_map_seq by lia); f_equal; lia.
Qed.

Lemma all_false l k : (forall i, (i < k)%nat -> nth i l false = false) -> forallb negb (firstn k l) = true.
Proof.
  revert l. induction k as [|k IH]; intros l H; [reflexivity|]. destruct l as [|b l]; [reflexivity|].
  cbn [firstn forallb]. apply andb_true_iff. split.
  - specialize (H 0%nat ltac:(lia)). cbn in H. rewrite H. reflexivity.
  - apply IH. intros i Hi. exact (H (S i) ltac:(lia)).
Qed.

Lemma all_false_inv l k : forallb negb (firstn k l) = true -> forall i, (i < k)%nat -> nth i l false = false.
Proof.
  revert l. induction k as [|k IH]; intros l H i Hi; [lia|]. destruct l as [|b l]; [destruct i; reflexivity|].
  cbn [firstn forallb] in H. apply andb_true_iff in H. destruct H as [Hb H].
  destruct i as [|i]; cbn [nth]; [destruct b; [discriminate|reflexivity]|]. apply IH; [exact H|lia].
Qed.

Lemma first_half_bits o x : (x < 2 ^ 64)%N ->
  (first_half o x = 0%N <-> forall i, (i < 32)%nat -> nth i (elem_bits o 64 x) false = false).
Proof.
  intros Hx. rewrite halves_bits. split.
  - intros H i Hi. rewrite app_nth1 by (rewrite elem_bits_length; lia). rewrite H.
    apply (all_false_inv _ 32); [|exact Hi]. rewrite firstn_all2 by (rewrite elem_bits_length; lia). apply zero_half.
  - intros H. apply (half_zero o).
    + rewrite <- (firstn_all2 (n := 32) (elem_bits o 32 (first_half o x))) by (rewrite elem_bits_length; lia).
      apply all_false. intros i Hi. specialize (H i Hi).
      rewrite app_nth1 in H by (rewrite elem_bits_length; lia). exact H.
    + destruct o; cbn [first_half].
      * apply N.mod_upper_bound. lia.
      * apply N.div_lt_upper_bound; [lia|]. change (2 ^ 32 * 2 ^ 32)%N with (2 ^ 64)%N. exact Hx.
Qed.

Lemma second_half_bits o x : (x < 2 ^ 64)%N ->
  (forall i, (32 <= i < 64)%nat -> nth i (elem_bits o 64 x) false = false) -> second_half o x = 0%N.
Proof.
  intros Hx. rewrite halves_bits. intros H. apply (half_zero o).
  - rewrite <- (firstn_all2 (n := 32) (elem_bits o 32 (second_half o x))) by (rewrite elem_bits_length; lia).
    apply all_false. intros i Hi. specialize (H (32 + i)%nat ltac:(lia)).
    rewrite app_nth2 in H by (rewrite elem_bits_length; lia). rewrite elem_bits_length in H.
    replace (32 + i - 32)%nat with i in H by lia. exact H.
  - destruct o; cbn [second_half].
    + apply N.div_lt_upper_bound; [lia|]. change (2 ^ 32 * 2 ^ 32)%N with (2 ^ 64)%N. exact Hx.
    + apply N.mod_upper_bound. lia.
Qed.

Lemma outcome_bits o bits :
  patch_outcome o (N.of_nat (List.length bits)) (pack U64 o bits) = if bad_bits bits then Panic else Ok bits.
Proof.
  destruct (list_eq_dec Bool.bool_dec bits []) as [->|Hne]; [destruct o; reflexivity|].
  destruct (pack_last o bits Hne) as (xs & x & Hp & Hxs & Hfx & Hx). apply fits64 in Hfx.
  assert (Hl : (0 < List.length bits)%nat) by (destruct bits; [congruence|cbn; lia]).
  assert (Hlg : List.length (last_group bits) = (List.length bits - 64 * List.length xs)%nat)
    by (unfold last_group; rewrite skipn_length, Hxs; reflexivity).
  unfold patch_outcome. pose proof (pack_bits U64 o bits) as Hpb. rewrite Hp in *. rewrite rev_app_distr.
  cbn [rev app]. rewrite rev_length, rev_involutive. unfold bad_bits. rewrite Hlg.
  destruct (N.eqb_spec (first_half o x) 0) as [Hz|Hz]; cbn [negb].
  - pose proof (proj1 (first_half_bits o x Hfx) Hz) as Hzb.
    assert (Hall : forallb negb (firstn 32 (last_group bits)) = true).
    { apply all_false. intros i Hi. rewrite <- Hx by lia. apply Hzb. exact Hi. }
    rewrite Hall, andb_true_r.
    destruct (N.ltb_spec (64 * N.of_nat (List.length xs) + 32) (N.of_nat (List.length bits))) as [Hc|Hc].
    + replace (32 <? List.length bits - 64 * List.length xs)%nat with true by lia. reflexivity.
    + replace (32 <? List.length bits - 64 * List.length xs)%nat with false by lia.
      assert (Hm : moved o x = x).
      { destruct o; cbn [moved]; [reflexivity|].
        assert (Hs : second_half Msb0 x = 0%N).
        { apply second_half_bits; [exact Hfx|]. intros i Hi. rewrite Hx by lia. apply nth_overflow. lia. }
        cbn [first_half second_half] in *. apply N.div_small_iff in Hz; [|lia]. rewrite N.mod_small in Hs by exact Hz.
        subst x. reflexivity. }
      rewrite Hm, Hpb. reflexivity.
  - assert (Hnall : forallb negb (firstn 32 (last_group bits)) = false).
    { destruct (forallb negb (firstn 32 (last_group bits))) eqn:Ha; [|reflexivity].
      exfalso. apply Hz. apply first_half_bits; [exact Hfx|]. intros i Hi. rewrite Hx by lia.
      apply (all_false_inv _ _ Ha i Hi). }
    rewrite Hnall, andb_false_r, Hpb. reflexivity.
Qed.

Lemma patch_bits o bits pre post : is_bytes (pre ++ post) -> fits U32 (N.of_nat (List.length bits)) = true ->
  patch_bitvec_u64 o (@slice_buffer unit (pre ++ bits_enc U64 o bits ++ post)) (List.length pre) tt =
    (if bad_bits bits then Panic else Ok bits, (List.length pre + List.length (bits_enc U64 o bits))%nat, tt).
Proof.
  intros Hb Hf. rewrite (patch_exact _ o _ (N.of_nat (List.length bits)) (pack U64 o bits)).
  - rewrite outcome_bits. unfold stands_length, bits_enc. rewrite app_length, flat_le_bytes_length. reflexivity.
  - apply is_bytes_app in Hb. destruct Hb as [Hb1 Hb2]. apply is_bytes_app. split; [exact Hb1|].
    apply is_bytes_app. split; [|exact Hb2]. unfold bits_enc. apply is_bytes_app. split; [apply (compact_enc_fits_is_bytes U32); exact Hf|].
    clear. induction (pack U64 o bits) as [|x l IH]; [constructor|]. cbn [flat_map].
    apply is_bytes_app. split; [apply le_bytes_is_bytes|exact IH].
  - apply stands_bits. exact Hf.
Qed.

Lemma bits_enc_is_bytes w o bits : fits U32 (N.of_nat (List.length bits)) = true -> is_bytes (bits_enc w o bits).
Proof.
  intros Hf. unfold bits_enc. apply is_bytes_app. split; [apply (compact_enc_fits_is_bytes U32); exact Hf|].
  clear. induction (pack w o bits) as [|x l IH]; [constructor|]. cbn [flat_map].
  apply is_bytes_app. split; [apply le_bytes_is_bytes|exact IH].
Qed.
