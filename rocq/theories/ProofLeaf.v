(** Leaf readers of the decoder, on byte slices, against the specification. *)
From Coq Require Import Lia ZifyBool ZifyNat ZifyN.
From Verif Require Import Base Compact Types Indicators Decode Spec ProofBase ProofCompact ProofUtf8.
Ltac Zify.zify_post_hook ::= Z.div_mod_to_equations.
Local Open Scope list_scope.

(** The bytes [bs] are at position [p] of [data]. *)
Definition has (data : bytes) (p : nat) (bs : bytes) : Prop :=
  slice data p (List.length bs) = bs.

Lemma has_nil data p : has data p [].
Proof. reflexivity. Qed.

Lemma app_length_inv {A} (a b c d : list A) :
  List.length a = List.length c -> a ++ b = c ++ d -> a = c /\ b = d.
Proof.
  revert c; induction a as [|x a IH]; intros [|y c]; cbn [List.length app]; intros Hl H;
    try discriminate; auto.
  injection H as -> H. destruct (IH c) as [-> ->]; auto.
Qed.

Lemma has_len data p bs : has data p bs -> bs = [] \/ (p + List.length bs <= List.length data)%nat.
Proof.
  unfold has, slice. intros H. apply (f_equal (@List.length N)) in H.
  rewrite firstn_length, skipn_length in H. destruct bs; [left; auto|right]. cbn [List.length] in *. lia.
Qed.

Lemma has_le data p bs : has data p bs -> (p <= List.length data)%nat ->
  (p + List.length bs <= List.length data)%nat.
Proof. intros H Hp. destruct (has_len _ _ _ H) as [->|Hl]; cbn; lia. Qed.

Lemma slice_short l p n : (List.length (slice l p n) <= n)%nat.
Proof. unfold slice. rewrite firstn_length. lia. Qed.

Lemma has_app data p a b : has data p (a ++ b) <-> has data p a /\ has data (p + List.length a) b.
Proof.
  unfold has. rewrite app_length, slice_app. split.
  - intros H. apply app_length_inv in H; auto.
    apply (f_equal (@List.length N)) in H. rewrite !app_length in H.
    pose proof (slice_short data p (List.length a)).
    pose proof (slice_short data (p + List.length a) (List.length b)). lia.
  - intros [-> ->]. reflexivity.
Qed.

Lemma has_cons data p x l : has data p (x :: l) <-> nth_error data p = Some x /\ has data (p + 1) l.
Proof.
  change (x :: l) with ([x] ++ l). rewrite has_app. cbn [List.length].
  split; intros [H1 H2]; split; auto.
  - unfold has, slice in H1. cbn [List.length] in H1.
    destruct (skipn p data) as [|y r] eqn:Hs; [discriminate|].
    cbn in H1. injection H1 as ->.
    assert (Hp : (p < List.length data)%nat).
    { destruct (Nat.lt_ge_cases p (List.length data)) as [Hlt|Hge]; auto.
      rewrite skipn_all2 in Hs by lia. discriminate. }
    rewrite <- (firstn_skipn p data), Hs.
    rewrite nth_error_app2; rewrite firstn_length; [|lia].
    replace (p - Nat.min p (List.length data))%nat with 0%nat by lia. reflexivity.
  - apply nth_error_split in H1. destruct H1 as (l1 & l2 & -> & <-).
    unfold has, slice. rewrite skipn_app_exact. reflexivity.
Qed.

Lemma has_is_bytes data p bs : is_bytes data -> has data p bs -> is_bytes bs.
Proof. intros H <-. apply is_bytes_slice, H. Qed.

Lemma has_mid pre bs post : has (pre ++ bs ++ post) (List.length pre) bs.
Proof. apply slice_mid. Qed.

Lemma has_slice data p n : (p + n <= List.length data)%nat -> has data p (slice data p n).
Proof. intros H. unfold has. rewrite slice_length by lia. reflexivity. Qed.

Lemma has_same_length data p a b : has data p a -> has data p b ->
  List.length a = List.length b -> a = b.
Proof. unfold has. intros Ha Hb Hl. rewrite <- Ha, <- Hb, Hl. reflexivity. Qed.

(** ** Pure conversions *)

Lemma char_valid_scalar c : char_valid c = scalar c.
Proof. unfold char_valid, scalar. lia. Qed.

Lemma fixed_len_raw k : fixed_len k = N.of_nat (raw_len k).
Proof. destruct k; reflexivity. Qed.

Lemma per_width_part k : per_width k = part_width k.
Proof. destruct k; reflexivity. Qed.

Lemma per_max_whole k : per_max k = whole k.
Proof. destruct k; reflexivity. Qed.

Lemma whole_fits k n : (n <= whole k)%N -> fits (part_width k) n = true.
Proof.
  rewrite fits_spec, umax_val.
  assert (H : (whole k <=? match part_width k with
    | U8 => 255 | U16 => 65535 | U32 => 4294967295 | U64 => 18446744073709551615
    | U128 => 340282366920938463463374607431768211455 end)%N = true) by (destruct k; reflexivity).
  apply N.leb_le in H. intros Hn. eapply N.le_trans; eassumption.
Qed.

(** *** Signed integers *)

Lemma pow_Z_256 k : (0 <= k)%Z -> (2 ^ (8 * k) = 256 ^ k)%Z.
Proof. intros H. change 256%Z with (2 ^ 8)%Z. rewrite Z.pow_mul_r by lia. reflexivity. Qed.

Lemma of_N_pow256 k : Z.of_N (256 ^ N.of_nat k) = (256 ^ Z.of_nat k)%Z.
Proof. rewrite N2Z.inj_pow. f_equal. lia. Qed.

Lemma half_pow k : (0 < k)%nat -> (256 ^ Z.of_nat k = 2 * 2 ^ (8 * Z.of_nat k - 1))%Z.
Proof.
  intros H. rewrite <- pow_Z_256 by lia.
  replace (8 * Z.of_nat k)%Z with (Z.succ (8 * Z.of_nat k - 1)) at 1 by lia.
  rewrite Z.pow_succ_r by lia. reflexivity.
Qed.

Definition int_range (k : nat) (z : Z) : bool :=
  ((- 2 ^ (8 * Z.of_nat k - 1) <=? z) && (z <? 2 ^ (8 * Z.of_nat k - 1)))%Z.
Definition int_bytes (k : nat) (z : Z) : bytes :=
  le_bytes k (Z.to_N (z mod 2 ^ (8 * Z.of_nat k))).

Lemma le_sval_int_bytes k z : (0 < k)%nat -> int_range k z = true -> le_sval (int_bytes k z) = z.
Proof.
  intros Hk H. unfold int_range in H. unfold int_bytes, le_sval.
  rewrite le_bytes_length. rewrite pow_Z_256 by lia.
  pose proof (half_pow k Hk) as Hh.
  set (h := (2 ^ (8 * Z.of_nat k - 1))%Z) in *.
  set (m := (256 ^ Z.of_nat k)%Z) in *.
  assert (Hm : (0 < m)%Z) by (apply Z.pow_pos_nonneg; lia).
  pose proof (Z.mod_pos_bound z m Hm) as Hb.
  rewrite le_val_le_bytes.
  2:{ apply N2Z.inj_lt. rewrite of_N_pow256. fold m. rewrite Z2N.id by lia. lia. }
  rewrite Z2N.id by lia.
  destruct (Z.ltb_spec z 0) as [Hz|Hz].
  - assert (Hmod : (z mod m = z + m)%Z).
    { symmetry. apply (Z.mod_unique _ _ (-1)); lia. }
    rewrite Hmod. destruct (Z.ltb_spec (2 * (z + m)) m); lia.
  - rewrite Z.mod_small by lia. destruct (Z.ltb_spec (2 * z) m); lia.
Qed.

Lemma int_bytes_le_sval l : is_bytes l -> (0 < List.length l)%nat ->
  int_range (List.length l) (le_sval l) = true /\ int_bytes (List.length l) (le_sval l) = l.
Proof.
  intros Hb Hk. unfold int_range, int_bytes, le_sval.
  rewrite pow_Z_256 by lia.
  pose proof (half_pow _ Hk) as Hh. pose proof (le_val_bound l Hb) as Hv.
  apply N2Z.inj_lt in Hv. rewrite of_N_pow256 in Hv.
  set (h := (2 ^ (8 * Z.of_nat (List.length l) - 1))%Z) in *.
  set (m := (256 ^ Z.of_nat (List.length l))%Z) in *.
  destruct (Z.ltb_spec (2 * Z.of_N (le_val l)) m) as [Hlt|Hge].
  - split; [lia|]. rewrite Z.mod_small by lia. rewrite N2Z.id. apply le_bytes_le_val, Hb.
  - split; [lia|].
    assert (Hmod : ((Z.of_N (le_val l) - m) mod m = Z.of_N (le_val l))%Z).
    { symmetry. apply (Z.mod_unique _ _ (-1)); lia. }
    rewrite Hmod, N2Z.id. apply le_bytes_le_val, Hb.
Qed.

(** *** Eras *)

Definition byte_list : list N := map N.of_nat (seq 0 256).

Lemma in_byte_list b : (b < 256)%N -> In b byte_list.
Proof.
  intros H. unfold byte_list. apply in_map_iff. exists (N.to_nat b). split; [lia|].
  apply in_seq. lia.
Qed.

Definition era_eqb (a b : era) : bool :=
  match a, b with
  | Immortal, Immortal => true
  | Mortal x y, Mortal x' y' => (x =? x')%N && (y =? y')%N
  | _, _ => false
  end.

Lemma era_eqb_eq a b : era_eqb a b = true <-> a = b.
Proof.
  destruct a as [|x y], b as [|x' y']; cbn; split; intros H; try discriminate; auto.
  - f_equal; lia.
  - injection H as -> ->. lia.
Qed.

Definition era_bytes_check (b0 b1 : N) : bool :=
  if (b0 =? 0)%N then true
  else
  match era_of_encoded (b0 + N.shiftl b1 8) with
  | Some (Mortal p ph) =>
      era_valid (Mortal p ph)
      && match era_enc (Mortal p ph) with [x; y] => (x =? b0)%N && (y =? b1)%N | _ => false end
  | Some Immortal => false
  | None => true
  end.

Lemma era_bytes_check_all :
  forallb (fun b0 => forallb (fun b1 => era_bytes_check b0 b1) byte_list) byte_list = true.
Proof. vm_compute. reflexivity. Qed.

Definition era_value_check (k j : N) : bool :=
  let p := (2 ^ k)%N in
  let ph := (j * quantum p)%N in
  if era_valid (Mortal p ph) then
    match era_enc (Mortal p ph) with
    | [x; y] => negb (x =? 0)%N && (x <? 256)%N && (y <? 256)%N &&
        match era_of_encoded (x + N.shiftl y 8) with
        | Some e => era_eqb e (Mortal p ph) | None => false end
    | _ => false
    end
  else true.

Definition upto (n : N) : list N := N.recursion [] (fun i l => i :: l) n.
Lemma in_upto n x : (x < n)%N -> In x (upto n).
Proof.
  revert x. induction n as [|n IH] using N.peano_ind; intros x H; [lia|].
  unfold upto. rewrite N.recursion_succ; [|reflexivity|intros ? ? -> ? ? ->; reflexivity].
  destruct (N.eq_dec x n) as [->|Hne]; [left; auto|right]. apply IH. lia.
Qed.

Lemma era_value_check_all :
  forallb (fun k => forallb (era_value_check k) (upto 4096)) (upto 17) = true.
Proof. vm_compute. reflexivity. Qed.

Lemma era_of_encoded_spec b0 b1 e : (b0 < 256)%N -> (b1 < 256)%N -> b0 <> 0%N ->
  era_of_encoded (b0 + N.shiftl b1 8) = Some e ->
  e <> Immortal /\ era_valid e = true /\ era_enc e = [b0; b1].
Proof.
  intros H0 H1 Hn H.
  pose proof era_bytes_check_all as Ha. rewrite forallb_forall in Ha.
  specialize (Ha b0 (in_byte_list _ H0)). rewrite forallb_forall in Ha.
  specialize (Ha b1 (in_byte_list _ H1)). unfold era_bytes_check in Ha.
  replace (b0 =? 0)%N with false in Ha by lia. rewrite H in Ha.
  destruct e as [|p ph]; [discriminate|].
  apply andb_true_iff in Ha. destruct Ha as [Hv He].
  split; [discriminate|]. split; [exact Hv|].
  destruct (era_enc (Mortal p ph)) as [|x [|y [|]]]; try discriminate.
  apply andb_true_iff in He. destruct He as [Hx Hy].
  apply N.eqb_eq in Hx. apply N.eqb_eq in Hy. subst. reflexivity.
Qed.

Lemma era_enc_decode p ph : era_valid (Mortal p ph) = true ->
  exists b0 b1, era_enc (Mortal p ph) = [b0; b1] /\ (b0 <> 0)%N /\ (b0 < 256)%N /\ (b1 < 256)%N /\
    era_of_encoded (b0 + N.shiftl b1 8) = Some (Mortal p ph).
Proof.
  intros Hv. pose proof Hv as Hv'. unfold era_valid in Hv'.
  assert (Hp : (p = 2 ^ N.log2 p)%N) by lia.
  assert (Hk : (N.log2 p < 17)%N).
  { apply N.log2_lt_pow2; [lia|]. change (2 ^ 17)%N with 131072%N. lia. }
  assert (Hph : (ph = ph / quantum p * quantum p)%N).
  { assert (Hq : quantum p <> 0%N) by (unfold quantum; lia).
    pose proof (N.div_mod ph (quantum p) Hq). lia. }
  assert (Hj : (ph / quantum p < 4096)%N).
  { unfold quantum in *. clear Hv Hp Hk Hph.
    apply N.div_lt_upper_bound; [lia|]. 
    destruct (N.max_spec (p / 4096) 1) as [[Hm ->]|[Hm ->]]; [lia|].
    destruct (N.le_gt_cases p 65536) as [H65|H65]; [|lia].
    assert (Hpw : (p = 2 ^ N.log2 p)%N) by lia.
    assert (Hl : (N.log2 p <= 16)%N).
    { apply N.log2_le_mono in H65. exact H65. }
    assert (Hl2 : (12 <= N.log2 p)%N).
    { assert (4096 <= p)%N by lia. apply N.log2_le_pow2; lia. }
    assert (N.log2 p = 12 \/ N.log2 p = 13 \/ N.log2 p = 14 \/ N.log2 p = 15 \/ N.log2 p = 16)%N as Hc by lia.
    destruct Hc as [Hc|[Hc|[Hc|[Hc|Hc]]]]; rewrite Hc in Hpw; cbn in Hpw; subst p; cbn in *; lia. }
  pose proof era_value_check_all as Ha. rewrite forallb_forall in Ha.
  specialize (Ha _ (in_upto _ _ Hk)). rewrite forallb_forall in Ha.
  specialize (Ha _ (in_upto _ _ Hj)). unfold era_value_check in Ha.
  rewrite <- Hp in Ha. cbv zeta in Ha. rewrite <- Hph in Ha. rewrite Hv in Ha.
  destruct (era_enc (Mortal p ph)) as [|x [|y [|]]]; try discriminate.
  exists x, y. 
  destruct (era_of_encoded (x + N.shiftl y 8)) as [e|]; [|rewrite andb_false_r in Ha; discriminate].
  apply andb_true_iff in Ha. destruct Ha as [Ha He]. apply era_eqb_eq in He. subst e.
  repeat split; auto; lia.
Qed.

Lemma era_enc_shape e : era_valid e = true ->
  (e = Immortal /\ era_enc e = [0%N]) \/
  (exists b0 b1, era_enc e = [b0; b1] /\ (b0 <> 0)%N /\ (b0 < 256)%N /\ (b1 < 256)%N /\
    era_of_encoded (b0 + N.shiftl b1 8) = Some e).
Proof.
  destruct e as [|p ph]; [left; auto|]. intros H. right. apply era_enc_decode, H.
Qed.

(** *** Bit vectors *)

Lemma bits_lsb_length n x : List.length (bits_lsb n x) = n.
Proof. unfold bits_lsb. rewrite map_length, seq_length. reflexivity. Qed.

Lemma elem_bits_length o n x : List.length (elem_bits o n x) = n.
Proof. destruct o; cbn; rewrite ?rev_length; apply bits_lsb_length. Qed.

Lemma nth_bits_lsb n x i : (i < n)%nat -> nth i (bits_lsb n x) false = N.testbit x (N.of_nat i).
Proof.
  intros H. unfold bits_lsb.
  rewrite (nth_indep _ false (N.testbit x (N.of_nat 0))) by (rewrite map_length, seq_length; lia).
  rewrite (map_nth (fun i => N.testbit x (N.of_nat i))). rewrite seq_nth by lia. reflexivity.
Qed.

Lemma nth_elem_bits o n x i : (i < n)%nat ->
  nth i (elem_bits o n x) false =
  N.testbit x (N.of_nat (match o with Lsb0 => i | Msb0 => n - 1 - i end)).
Proof.
  intros H. destruct o; cbn [elem_bits].
  - apply nth_bits_lsb, H.
  - rewrite rev_nth by (rewrite bits_lsb_length; lia). rewrite bits_lsb_length.
    rewrite nth_bits_lsb by lia. f_equal. lia.
Qed.

Lemma nth_flat_bits o n elems : (0 < n)%nat -> forall i, (i < n * List.length elems)%nat ->
  nth i (flat_map (elem_bits o n) elems) false = nth (i mod n) (elem_bits o n (nth (i / n) elems 0%N)) false.
Proof.
  intros Hn. induction elems as [|x elems IH]; intros i Hi; cbn [List.length] in Hi; [lia|].
  cbn [flat_map].
  destruct (Nat.lt_ge_cases i n) as [Hlt|Hge].
  - rewrite app_nth1 by (rewrite elem_bits_length; lia).
    rewrite Nat.mod_small, Nat.div_small by lia. reflexivity.
  - rewrite app_nth2 by (rewrite elem_bits_length; lia). rewrite elem_bits_length.
    rewrite IH by lia.
    replace i with ((i - n) + 1 * n)%nat at 3 4 by lia.
    rewrite Nat.mod_add, Nat.div_add by lia. rewrite Nat.add_1_r. reflexivity.
Qed.

Lemma flat_bits_length o n elems :
  List.length (flat_map (elem_bits o n) elems) = (n * List.length elems)%nat.
Proof.
  induction elems as [|x elems IH]; cbn [flat_map List.length]; [lia|].
  rewrite app_length, elem_bits_length, IH. lia.
Qed.

Lemma firstn_nth_map {A} (d : A) (l : list A) n : (n <= List.length l)%nat ->
  firstn n l = map (fun i => nth i l d) (seq 0 n).
Proof.
  revert l; induction n as [|n IH]; intros l H; [reflexivity|].
  destruct l as [|x l]; cbn [List.length] in H; [lia|].
  cbn [firstn seq map nth]. f_equal. rewrite IH by lia.
  rewrite <- seq_shift, map_map. reflexivity.
Qed.

Lemma the_bits_spec w o n elems :
  (N.to_nat n <= 8 * usize w * List.length elems)%nat ->
  firstn (N.to_nat n) (flat_map (elem_bits o (8 * usize w)) elems) = the_bits w o n elems.
Proof.
  intros H. unfold the_bits.
  rewrite (firstn_nth_map false) by (rewrite flat_bits_length; lia).
  apply map_ext_in. intros i Hi. apply in_seq in Hi.
  assert (Hw : (0 < 8 * usize w)%nat) by (destruct w; cbn; lia).
  rewrite nth_flat_bits by lia.
  rewrite nth_elem_bits by (apply Nat.mod_upper_bound; lia).
  unfold nth_bit. reflexivity.
Qed.

Lemma chunks_le_bytes n elems : (0 < n)%nat ->
  chunks (List.length elems) n (flat_map (le_bytes n) elems) = map (le_bytes n) elems.
Proof.
  intros Hn. induction elems as [|x elems IH]; [reflexivity|].
  cbn [List.length flat_map chunks map].
  pose proof (firstn_app_exact (le_bytes n x) (flat_map (le_bytes n) elems)) as Hf.
  pose proof (skipn_app_exact (le_bytes n x) (flat_map (le_bytes n) elems)) as Hs.
  rewrite le_bytes_length in Hf, Hs. rewrite Hf, Hs. f_equal. exact IH.
Qed.

Lemma flat_le_bytes_length n elems :
  List.length (flat_map (le_bytes n) elems) = (n * List.length elems)%nat.
Proof.
  induction elems as [|x elems IH]; cbn [flat_map List.length]; [lia|].
  rewrite app_length, le_bytes_length, IH. lia.
Qed.

Lemma chunks_inv k n l : is_bytes l -> List.length l = (k * n)%nat ->
  l = flat_map (le_bytes n) (map le_val (chunks k n l)) /\
  List.length (chunks k n l) = k /\
  forallb (fun x => (x <? 256 ^ N.of_nat n)%N) (map le_val (chunks k n l)) = true.
Proof.
  revert l; induction k as [|k IH]; intros l Hb Hl; cbn [chunks map flat_map forallb].
  - destruct l; [auto|cbn in Hl; lia].
  - assert (Hf : List.length (firstn n l) = n) by (rewrite firstn_length; lia).
    assert (Hfb : is_bytes (firstn n l)) by (apply Forall_firstn; auto).
    destruct (IH (skipn n l)) as (H1 & H2 & H3).
    { apply Forall_skipn; auto. }
    { rewrite skipn_length. lia. }
    split; [|split].
    + rewrite <- H1. pose proof (le_bytes_le_val _ Hfb) as Hr. rewrite Hf in Hr. rewrite Hr.
      rewrite firstn_skipn. reflexivity.
    + cbn [List.length]. lia.
    + rewrite H3. rewrite andb_true_r. pose proof (le_val_bound _ Hfb) as Hv. rewrite Hf in Hv. lia.
Qed.

Lemma compact_size_enc w n r : fits w n = true ->
  compact_size (compact_enc n ++ r) = List.length (compact_enc n).
Proof.
  intros Hf. unfold compact_enc.
  destruct (N.ltb_spec n 64) as [H1|H1].
  { cbn [app compact_size List.length]. replace ((4 * n) mod 4)%N with 0%N by lia. reflexivity. }
  destruct (N.ltb_spec n (2 ^ 14)) as [H2|H2].
  { rewrite le_bytes_length. rewrite le_bytes_S. cbn [app compact_size].
    replace (((4 * n + 1) mod 256) mod 4)%N with 1%N by lia. reflexivity. }
  destruct (N.ltb_spec n (2 ^ 30)) as [H3|H3].
  { rewrite le_bytes_length. rewrite le_bytes_S. cbn [app compact_size].
    replace (((4 * n + 2) mod 256) mod 4)%N with 2%N by lia. reflexivity. }
  cbn [app compact_size List.length]. rewrite le_bytes_length.
  destruct (big_len_bounds n H3) as (Hb1 & _ & _).
  replace ((4 * (N.of_nat (big_len n) - 4) + 3) mod 4)%N with 3%N by lia.
  lia.
Qed.

Definition store_len (w : uwidth) (bits : N) : N :=
  ((bits + 8 * N.of_nat (usize w) - 1) / (8 * N.of_nat (usize w)))%N.

Lemma bitvec_elements_store w bits : bitvec_elements (N.of_nat (usize w)) bits = store_len w bits.
Proof.
  unfold bitvec_elements, ceil_div, store_len. destruct w; cbn [usize];
  repeat match goal with |- context [(?a =? 0)%N] => destruct (N.eqb_spec a 0) end; lia.
Qed.

Lemma ceil_div_store w bits : ceil_div bits (N.of_nat (8 * usize w)) = store_len w bits.
Proof.
  unfold ceil_div, store_len. destruct w; cbn [usize Nat.mul Nat.add];
  repeat match goal with |- context [(?a =? 0)%N] => destruct (N.eqb_spec a 0) end; lia.
Qed.

Lemma fits_pow w x : fits w x = (x <? 256 ^ N.of_nat (usize w))%N.
Proof. unfold fits. rewrite pow_2_256. reflexivity. Qed.

Lemma max_bits_fits n : (n <= max_bits)%N -> fits U32 n = true.
Proof. unfold max_bits. rewrite fits_spec, umax_val. change (2 ^ 29 - 1)%N with 536870911%N. lia. Qed.

Lemma forallb_ext {A} (f g : A -> bool) l : (forall x, f x = g x) -> forallb f l = forallb g l.
Proof. intros H. induction l as [|x l IH]; cbn; [auto|]. rewrite H, IH. reflexivity. Qed.

(** [bitvec_decode_all] on the right number of bytes. *)
Lemma bitvec_decode_all_inv w o l bits : is_bytes l -> bitvec_decode_all w o l = Some bits ->
  exists n elems, (n <= max_bits)%N /\ forallb (fits w) elems = true /\
    N.of_nat (List.length elems) = store_len w n /\
    l = compact_enc n ++ flat_map (le_bytes (usize w)) elems /\
    bits = the_bits w o n elems.
Proof.
  intros Hb. unfold bitvec_decode_all.
  destruct (compact_decode U32 l) as [n|] eqn:Hd; [|discriminate].
  destruct (compact_decode_inv U32 l n Hb Hd) as (Hf & r & ->).
  destruct (N.ltb_spec MAX_BITS n) as [Hm|Hm]; [discriminate|].
  rewrite (compact_size_enc U32) by auto. rewrite skipn_app_exact.
  rewrite ceil_div_store. cbv zeta.
  destruct (Nat.eqb_spec (List.length r) (N.to_nat (store_len w n) * usize w)) as [Hl|Hl]; [|discriminate].
  intros H; injection H as <-.
  apply is_bytes_app in Hb. destruct Hb as [_ Hr].
  destruct (chunks_inv (N.to_nat (store_len w n)) (usize w) r Hr Hl) as (Hc1 & Hc2 & Hc3).
  exists n, (map le_val (chunks (N.to_nat (store_len w n)) (usize w) r)).
  split; [unfold max_bits; change (2 ^ 29 - 1)%N with 536870911%N; unfold MAX_BITS in Hm; lia|].
  split.
  { rewrite <- Hc3. apply forallb_ext. intros x. apply fits_pow. }
  split; [rewrite map_length; lia|].
  split; [rewrite <- Hc1; reflexivity|].
  rewrite <- the_bits_spec.
  - f_equal. rewrite !flat_map_concat_map, map_map. reflexivity.
  - rewrite map_length, Hc2. unfold store_len. destruct w; cbn [usize]; lia.
Qed.

Lemma map_le_val_bytes w elems : forallb (fits w) elems = true ->
  map le_val (map (le_bytes (usize w)) elems) = elems.
Proof.
  induction elems as [|x elems IH]; [reflexivity|]. cbn [forallb map]. intros H.
  apply andb_true_iff in H. destruct H as [Hx H]. rewrite IH by auto. f_equal.
  apply le_val_le_bytes. rewrite fits_pow in Hx. lia.
Qed.

Lemma bitvec_decode_all_enc w o n elems : (n <= max_bits)%N -> forallb (fits w) elems = true ->
  N.of_nat (List.length elems) = store_len w n ->
  bitvec_decode_all w o (compact_enc n ++ flat_map (le_bytes (usize w)) elems)
  = Some (the_bits w o n elems).
Proof.
  intros Hn He Hl. pose proof (max_bits_fits n Hn) as Hf.
  unfold bitvec_decode_all. rewrite compact_decode_enc by auto.
  unfold max_bits in Hn. change (2 ^ 29 - 1)%N with 536870911%N in Hn.
  replace (MAX_BITS <? n)%N with false by (unfold MAX_BITS; lia).
  rewrite (compact_size_enc U32) by auto. rewrite skipn_app_exact.
  rewrite ceil_div_store. cbv zeta. rewrite flat_le_bytes_length.
  replace (N.to_nat (store_len w n)) with (List.length elems) by lia.
  replace (usize w * List.length elems =? List.length elems * usize w)%nat with true
    by (symmetry; apply Nat.eqb_eq; lia).
  rewrite chunks_le_bytes by (destruct w; cbn; lia).
  f_equal. rewrite <- the_bits_spec.
  - f_equal. rewrite !flat_map_concat_map. f_equal.
    rewrite <- (map_le_val_bytes w elems He) at 2. rewrite (map_map le_val). reflexivity.
  - unfold store_len in Hl. destruct w; cbn [usize] in *; lia.
Qed.
