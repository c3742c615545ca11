(** Balances: proofs (C35, C36). *)
From Coq Require Import Lia ZifyBool ZifyNat ZifyN QArith Qpower DecimalFacts DecimalN DecimalString.
From Verif Require Import Base Sign Balance SpecBalance.
Local Open Scope string_scope.
Local Open Scope N_scope.

(** ** Decimal prints *)

Fixpoint uval (acc : N) (d : Decimal.uint) : N :=
  match d with
  | Decimal.Nil => acc
  | Decimal.D0 l => uval (10 * acc) l
  | Decimal.D1 l => uval (10 * acc + 1) l
  | Decimal.D2 l => uval (10 * acc + 2) l
  | Decimal.D3 l => uval (10 * acc + 3) l
  | Decimal.D4 l => uval (10 * acc + 4) l
  | Decimal.D5 l => uval (10 * acc + 5) l
  | Decimal.D6 l => uval (10 * acc + 6) l
  | Decimal.D7 l => uval (10 * acc + 7) l
  | Decimal.D8 l => uval (10 * acc + 8) l
  | Decimal.D9 l => uval (10 * acc + 9) l
  end.

Lemma uval_acc d : forall p, N.pos (Pos.of_uint_acc d p) = uval (N.pos p) d.
Proof.
  induction d; intros p; cbn [Pos.of_uint_acc uval]; [reflexivity|..];
    rewrite IHd; f_equal; lia.
Qed.

Lemma uval_of d : N.of_uint d = uval 0 d.
Proof.
  unfold N.of_uint. induction d; cbn [Pos.of_uint uval]; [reflexivity|exact IHd|..];
    rewrite uval_acc; reflexivity.
Qed.

Lemma value_print d : forall acc, value_from acc (NilEmpty.string_of_uint d) = uval acc d.
Proof.
  induction d; intros acc; cbn [NilEmpty.string_of_uint value_from uval]; [reflexivity|..];
    rewrite IHd; f_equal; cbn; lia.
Qed.

Lemma digits_print d : all_digits (NilEmpty.string_of_uint d) = true.
Proof. induction d; cbn [NilEmpty.string_of_uint all_digits]; [reflexivity|..]; rewrite IHd; reflexivity. Qed.

Lemma dec_value v : digits_value (dec_string v) = v.
Proof. unfold digits_value, dec_string. rewrite value_print, <- uval_of. apply Unsigned.of_to. Qed.

Lemma dec_digits v : all_digits (dec_string v) = true.
Proof. apply digits_print. Qed.

(** First digit. *)

Lemma dec_head v : (v = 0 /\ dec_string v = "0") \/ (0 < v /\ ~ leading_zero (dec_string v) /\ dec_string v <> "").
Proof.
  unfold dec_string. pose proof (Unsigned.to_of (N.to_uint v)) as H. rewrite Unsigned.of_to in H.
  destruct (N.eq_dec v 0) as [->|Hv]; [left; split; reflexivity|right].
  split; [lia|]. pose proof (Unsigned.of_to v) as Hv'. rewrite uval_of in Hv'.
  destruct (N.to_uint v) as [|l|l|l|l|l|l|l|l|l|l] eqn:Hu.
  - cbn in Hv'. lia.
  - exfalso. unfold Decimal.unorm in H. cbn [Decimal.nzhead] in H. destruct (Decimal.nzhead l) eqn:Hn.
    + assert (l = Decimal.Nil) by congruence. subst l. cbn in Hv'. lia.
    + exfalso. revert Hn. clear. induction l; cbn [Decimal.nzhead]; try discriminate. exact IHl.
    + discriminate. + discriminate. + discriminate. + discriminate. + discriminate. + discriminate. + discriminate. + discriminate. + discriminate.
  - split; [intros [r Hr]|]; discriminate.
  - split; [intros [r Hr]|]; discriminate.
  - split; [intros [r Hr]|]; discriminate.
  - split; [intros [r Hr]|]; discriminate.
  - split; [intros [r Hr]|]; discriminate.
  - split; [intros [r Hr]|]; discriminate.
  - split; [intros [r Hr]|]; discriminate.
  - split; [intros [r Hr]|]; discriminate.
  - split; [intros [r Hr]|]; discriminate.
Qed.

Lemma value_bound s : forall acc, value_from acc s >= acc * 10 ^ N.of_nat (String.length s).
Proof.
  induction s as [|c s IH]; intros acc; cbn [value_from String.length]; [rewrite N.pow_0_r; lia|].
  specialize (IH (10 * acc + (N_of_ascii c - 48))).
  rewrite Nat2N.inj_succ, N.pow_succ_r'. nia.
Qed.

Lemma dec_length v k : v < 10 ^ N.of_nat k -> (1 <= k)%nat -> (1 <= String.length (dec_string v) <= k)%nat.
Proof.
  intros Hv Hk. destruct (dec_head v) as [[-> ->]|(Hp & Hz & Hne)]; [cbn; lia|].
  destruct (dec_string v) as [|c s] eqn:Hs; [congruence|]. cbn [String.length]. split; [lia|].
  pose proof (dec_value v) as He. pose proof (dec_digits v) as Hd. rewrite Hs in He, Hd.
  unfold digits_value in He. cbn [value_from] in He. cbn [all_digits] in Hd. apply andb_true_iff in Hd. destruct Hd as [Hd _].
  pose proof (value_bound s (10 * 0 + (N_of_ascii c - 48))) as Hb. rewrite He in Hb.
  assert (Hc : N_of_ascii c <> 48).
  { intros Hc. apply Hz. exists s. f_equal. rewrite <- (ascii_N_embedding c), Hc. reflexivity. }
  unfold is_digit in Hd.
  assert (H1 : 10 ^ N.of_nat (String.length s) <= v) by nia.
  assert (H2 : 10 ^ N.of_nat (String.length s) < 10 ^ N.of_nat k) by lia.
  apply N.pow_lt_mono_r_iff in H2; lia.
Qed.

(** ** Strings *)

Lemma str_length_app a b : String.length (a ++ b) = (String.length a + String.length b)%nat.
Proof. induction a; cbn; [reflexivity|]. rewrite IHa. reflexivity. Qed.

Lemma str_app_assoc a b c : (a ++ b) ++ c = a ++ (b ++ c).
Proof. induction a; cbn; [reflexivity|]. rewrite IHa. reflexivity. Qed.

Lemma str_app_nil a : a ++ "" = a.
Proof. induction a; cbn; [reflexivity|]. rewrite IHa. reflexivity. Qed.

Lemma zeroes_length n : String.length (zeroes n) = n.
Proof. induction n; cbn; auto. Qed.

Lemma all_digits_app a b : all_digits (a ++ b) = (all_digits a && all_digits b)%bool.
Proof. induction a; cbn; [reflexivity|]. rewrite IHa. apply andb_assoc. Qed.

Lemma zeroes_digits n : all_digits (zeroes n) = true.
Proof. induction n; cbn; auto. Qed.

Lemma value_app a b acc : value_from acc (a ++ b) = value_from (value_from acc a) b.
Proof. revert acc. induction a; intros acc; cbn; auto. Qed.

Lemma value_zeroes n acc : value_from acc (zeroes n) = acc * 10 ^ N.of_nat n.
Proof.
  revert acc. induction n as [|n IH]; intros acc; cbn [zeroes value_from]; [rewrite N.pow_0_r; lia|].
  rewrite IH. rewrite Nat2N.inj_succ, N.pow_succ_r'. change (N_of_ascii "0" - 48) with 0. nia.
Qed.

Lemma cut_string s : forall k, (k <= String.length s)%nat ->
  exists a b, substring 0 k s = a /\ substring k (String.length s - k) s = b /\ s = a ++ b /\
    String.length a = k /\ String.length b = (String.length s - k)%nat.
Proof.
  induction s as [|c s IH]; intros k Hk.
  - cbn in Hk. assert (k = 0%nat) by lia. subst k. exists "", "". cbn. auto.
  - destruct k as [|k].
    + exists "". destruct (IH 0%nat ltac:(lia)) as (a & b & Ha & Hb & Hs & La & Lb).
      destruct a; [|discriminate]. exists (String c b). rewrite Nat.sub_0_r in *. cbn [substring String.length] in *.
      rewrite Hb. repeat split; cbn in *; congruence || lia.
    + cbn [String.length] in Hk. destruct (IH k ltac:(lia)) as (a & b & Ha & Hb & Hs & La & Lb).
      exists (String c a), b. cbn [substring String.length]. rewrite Ha. cbn [Nat.sub]. rewrite Hb.
      repeat split; [cbn; congruence|lia|exact Lb].
Qed.

(** ** How a print of [n] digits is cut *)

Inductive plan (s : string) (d : N) : cut_number -> Prop :=
| P_cut a b m : s = a ++ b -> a <> "" -> b <> "" -> (Z.of_N d = 3 * m + Z.of_nat (String.length b))%Z ->
    (-4 <= m <= 6)%Z -> (String.length a <= 3)%nat \/ m = (-4)%Z -> plan s d (CutNumber a (Some b) m)
| P_whole m : (Z.of_N d = 3 * m)%Z -> (-4 <= m <= 6)%Z -> (String.length s <= 3)%nat -> plan s d (CutNumber s None m)
| P_more j m : (Z.of_N d + Z.of_nat j = 3 * m)%Z -> (-4 <= m <= 6)%Z -> (String.length s + j <= 3)%nat ->
    plan s d (CutNumber (s ++ zeroes j) None m)
| P_less z : (d = 18 + N.of_nat z + N.of_nat (String.length s)) -> plan s d (CutNumber "0" (Some (zeroes z ++ s)) 6)
| P_zero j m : s = "0" -> (-4 <= m <= 6)%Z -> (0 < j)%nat -> (Z.of_N d = 3 * m + Z.of_nat j)%Z -> plan s d (CutNumber s (Some (zeroes j)) m).

Ltac arith := Z.to_euclidean_division_equations; lia.

Lemma mod3 n : n mod 3 = 0 \/ n mod 3 = 1 \/ n mod 3 = 2.
Proof. pose proof (N.mod_lt n 3). lia. Qed.

Lemma as_i8_small n : n < 128 -> as_i8 n = Z.of_N n.
Proof. intros H. unfold as_i8. apply N.ltb_lt in H. rewrite H. reflexivity. Qed.

Lemma i8_add_small a b : (-128 <= a + b <= 127)%Z -> i8_add a b = Some (a + b)%Z.
Proof. intros H. unfold i8_add. replace (_ && _)%bool with true by lia. reflexivity. Qed.

Lemma u8_sub_ok a b : b <= a -> u8_sub a b = Some (a - b).
Proof. intros H. unfold u8_sub. apply N.leb_le in H. rewrite H. reflexivity. Qed.
Lemma u8_add_ok a b : a + b < 256 -> u8_add a b = Some (a + b).
Proof. intros H. unfold u8_add. apply N.ltb_lt in H. rewrite H. reflexivity. Qed.

Lemma split_ok s k m : (k <= String.length s)%nat -> exists a b, s = a ++ b /\ String.length a = (String.length s - k)%nat /\ String.length b = k /\
  split_end s (N.of_nat k) m = Some (CutNumber a (Some b) m).
Proof.
  intros Hk. unfold split_end. replace (N.of_nat k <=? _) with true by lia. rewrite Nat2N.id.
  destruct (cut_string s (String.length s - k) ltac:(lia)) as (a & b & Ha & Hb & Hs & La & Lb).
  exists a, b. rewrite <- Hs, Lb. repeat split; try lia. unfold str_to, str_from.
  replace (Nat.leb _ _) with true by lia. cbn [obind]. rewrite Ha, Hb. reflexivity.
Qed.

Lemma str_cut s k : (k <= String.length s)%nat -> exists a b, s = a ++ b /\ String.length a = k /\ String.length b = (String.length s - k)%nat /\
  str_to s k = Some a /\ str_from s k = Some b.
Proof.
  intros Hk. destruct (cut_string s k Hk) as (a & b & Ha & Hb & Hs & La & Lb). exists a, b. unfold str_to, str_from.
  replace (Nat.leb _ _) with true by lia. rewrite Ha, Hb. auto 6.
Qed.

Lemma assist_ok s order d : order <= d -> 18 < d - order -> N.of_nat (String.length s) = order + 1 ->
  exists t, assist_order s d order = Some t /\ plan s d t.
Proof.
  intros H1 H2 Hl. unfold assist_order. change (u8_mul MAG_HIGHEST_POS 3) with (Some 18). cbn [obind].
  rewrite u8_sub_ok by lia. cbn [obind]. rewrite u8_sub_ok by lia. cbn [obind]. rewrite u8_sub_ok by lia. cbn [obind].
  eexists. split; [reflexivity|]. unfold assist. change (as_i8 MAG_HIGHEST_POS) with 6%Z. apply P_less. lia.
Qed.

Lemma nonempty_length s : s <> "" <-> (0 < String.length s)%nat.
Proof. destruct s; cbn; split; intros; try lia; congruence. Qed.

Lemma one_digit s d : String.length s = 1%nat -> d < 256 -> exists t, cut_one_digit s d = Some t /\ plan s d t.
Proof.
  intros Hl Hd. unfold cut_one_digit. change (u8_mul MAG_HIGHEST_POS 3) with (Some 18). cbn [obind].
  assert (Hass : ~ d <= 18 -> exists t, (olet a <- u8_sub d 18; olet z <- u8_sub a 1; Some (assist s z)) = Some t /\ plan s d t).
  { intros H. rewrite u8_sub_ok by lia. cbn [obind]. rewrite u8_sub_ok by lia. cbn [obind]. eexists. split; [reflexivity|].
    unfold assist. change (as_i8 MAG_HIGHEST_POS) with 6%Z. apply P_less. lia. }
  destruct (String.eqb_spec s "0") as [Hz|Hz]; (destruct (N.leb_spec d 18) as [Hle|Hgt]; [|apply Hass; lia]);
    destruct (mod3 d) as [Hm|[Hm|Hm]]; rewrite Hm; rewrite as_i8_small by arith.
  - eexists. split; [reflexivity|]. apply P_whole; [arith|arith|lia].
  - eexists. split; [reflexivity|]. apply (P_zero s d 1); [exact Hz|arith|lia|arith].
  - eexists. split; [reflexivity|]. apply (P_zero s d 2); [exact Hz|arith|lia|arith].
  - eexists. split; [reflexivity|]. apply P_whole; [arith|arith|lia].
  - rewrite i8_add_small by arith. cbn [obind]. eexists. split; [reflexivity|]. apply (P_more s d 2); [arith|arith|lia].
  - rewrite i8_add_small by arith. cbn [obind]. eexists. split; [reflexivity|]. apply (P_more s d 1); [arith|arith|lia].
Qed.

Lemma two_digits s d : String.length s = 2%nat -> d < 256 -> exists t, cut_two_digits s 1 d = Some t /\ plan s d t.
Proof.
  intros Hl Hd. unfold cut_two_digits. destruct (N.leb_spec 1 d) as [H1|H1].
  2: { eexists. split; [reflexivity|]. apply P_whole; lia. }
  change (u8_mul MAG_HIGHEST_POS 3) with (Some 18). cbn [obind]. rewrite u8_sub_ok by lia. cbn [obind].
  destruct (N.leb_spec (d - 1) 18) as [Hle|Hgt]; [|apply assist_ok; lia].
  rewrite u8_add_ok by lia. cbn [obind].
  destruct (mod3 (d + 2)) as [Hm|[Hm|Hm]]; rewrite Hm; rewrite as_i8_small by arith.
  - destruct (str_cut s 1 ltac:(lia)) as (a & b & -> & La & Lb & -> & ->). cbn [obind]. eexists. split; [reflexivity|].
    rewrite str_length_app in *. apply P_cut; try reflexivity; rewrite ?nonempty_length; try lia; arith.
  - rewrite i8_add_small by arith. cbn [obind]. eexists. split; [reflexivity|]. apply (P_more s d 1); [arith|arith|lia].
  - eexists. split; [reflexivity|]. apply P_whole; [arith|arith|lia].
Qed.

Lemma three_digits s d : String.length s = 3%nat -> d < 256 -> exists t, cut_three_digits s 2 d = Some t /\ plan s d t.
Proof.
  intros Hl Hd. unfold cut_three_digits. destruct (N.leb_spec 2 d) as [H1|H1].
  2: { destruct (N.eqb_spec d 0) as [H0|H0].
       - eexists. split; [reflexivity|]. apply P_whole; lia.
       - destruct (str_cut s 2 ltac:(lia)) as (a & b & -> & La & Lb & -> & ->). cbn [obind]. eexists. split; [reflexivity|].
         rewrite str_length_app in *. apply P_cut; try reflexivity; rewrite ?nonempty_length; try lia; arith. }
  change (u8_mul MAG_HIGHEST_POS 3) with (Some 18). cbn [obind]. rewrite u8_sub_ok by lia. cbn [obind].
  destruct (N.leb_spec (d - 2) 18) as [Hle|Hgt]; [|apply assist_ok; lia].
  rewrite u8_add_ok by lia. cbn [obind].
  destruct (mod3 (d + 1)) as [Hm|[Hm|Hm]]; rewrite Hm; rewrite as_i8_small by arith.
  - destruct (str_cut s 1 ltac:(lia)) as (a & b & -> & La & Lb & -> & ->). cbn [obind]. eexists. split; [reflexivity|].
    rewrite str_length_app in *. apply P_cut; try reflexivity; rewrite ?nonempty_length; try lia; arith.
  - eexists. split; [reflexivity|]. apply P_whole; [arith|arith|lia].
  - destruct (str_cut s 2 ltac:(lia)) as (a & b & -> & La & Lb & -> & ->). cbn [obind]. eexists. split; [reflexivity|].
    rewrite str_length_app in *. apply P_cut; try reflexivity; rewrite ?nonempty_length; try lia; arith.
Qed.

Lemma split_plan s d k m : (0 < k < String.length s)%nat -> (Z.of_N d = 3 * m + Z.of_nat k)%Z -> (-4 <= m <= 6)%Z ->
  (String.length s - k <= 3)%nat \/ m = (-4)%Z -> exists t, split_end s (N.of_nat k) m = Some t /\ plan s d t.
Proof.
  intros Hk Hd Hm Hs. destruct (split_ok s k m ltac:(lia)) as (a & b & He & La & Lb & ->). eexists. split; [reflexivity|].
  apply P_cut; rewrite ?nonempty_length; try assumption; try lia.
Qed.

Lemma split_plan_N s d k m : 0 < k < N.of_nat (String.length s) -> (Z.of_N d = 3 * m + Z.of_N k)%Z -> (-4 <= m <= 6)%Z ->
  N.of_nat (String.length s) <= k + 3 \/ m = (-4)%Z -> exists t, split_end s k m = Some t /\ plan s d t.
Proof.
  intros Hk Hd Hm Hs. rewrite <- (N2Nat.id k) in *. apply split_plan; lia.
Qed.

Lemma many_digits s order d : N.of_nat (String.length s) = order + 1 -> 3 <= order < 100 -> d < 256 ->
  exists t, cut_many_digits s order d = Some t /\ plan s d t.
Proof.
  intros Hl Ho Hd. unfold cut_many_digits. destruct (N.leb_spec order d) as [H1|H1].
  - change (u8_mul MAG_HIGHEST_POS 3) with (Some 18). cbn [obind]. rewrite u8_sub_ok by lia. cbn [obind].
    destruct (N.leb_spec (d - order) 18) as [Hle|Hgt]; [|apply assist_ok; lia].
    destruct (mod3 (d - order)) as [Hm|[Hm|Hm]]; rewrite Hm; rewrite as_i8_small by arith.
    + cbn [obind fst snd]. apply split_plan_N; try lia; arith.
    + rewrite u8_sub_ok by lia. cbn [obind]. rewrite i8_add_small by arith. cbn [obind fst snd]. apply split_plan_N; try lia; arith.
    + rewrite u8_sub_ok by lia. cbn [obind]. rewrite i8_add_small by arith. cbn [obind fst snd]. apply split_plan_N; try lia; arith.
  - rewrite u8_sub_ok by lia. change (u8_mul MAG_LOWEST_NEG 3) with (Some 12). cbn [obind].
    destruct (N.leb_spec (order - d) 12) as [Hle|Hgt].
    + rewrite u8_sub_ok by arith. cbn [obind]. rewrite as_i8_small by lia.
      assert (Hq : (0 <= Z.quot (Z.of_N (order - d)) 3 <= 4)%Z) by arith.
      unfold i8_neg. replace (Z.quot (Z.of_N (order - d)) 3 =? -128)%Z with false by lia. cbn [obind fst snd]. apply split_plan_N; arith.
    + rewrite u8_add_ok by lia. cbn [obind]. change (i8_neg (as_i8 MAG_LOWEST_NEG)) with (Some (-4)%Z). cbn [obind fst snd]. apply split_plan_N; lia.
Qed.

Definition cut (s : string) (d : N) : option cut_number :=
  olet order <- u8_sub (N.of_nat (String.length s) mod 256) 1;
  match order with
  | 0 => cut_one_digit s d
  | 1 => cut_two_digits s order d
  | 2 => cut_three_digits s order d
  | _ => cut_many_digits s order d
  end.

Lemma cut_ok s d : (1 <= String.length s <= 100)%nat -> d < 256 -> exists t, cut s d = Some t /\ plan s d t.
Proof.
  intros Hl Hd. unfold cut. rewrite N.mod_small by lia. rewrite u8_sub_ok by lia. cbn [obind].
  destruct (N.of_nat (String.length s) - 1) as [|[p|[p|p|]|]] eqn:Ho.
  - apply one_digit; lia.
  - rewrite <- Ho. apply many_digits; lia.
  - rewrite <- Ho. apply many_digits; lia.
  - rewrite <- Ho. apply many_digits; lia.
  - apply three_digits; lia.
  - apply two_digits; lia.
Qed.

Lemma convert_cut s d unit : convert_balance_string s d unit =
  olet t <- cut s d; olet p <- unit_prefix (mag t);
  Some (Currency (match after_point t with Some x => before_point t ++ "." ++ x | None => before_point t end) (p ++ unit)).
Proof. unfold convert_balance_string, cut. destruct (u8_sub _ 1); reflexivity. Qed.

Lemma prefix_ok m : (-4 <= m <= 6)%Z -> exists p, unit_prefix m = Some p /\ In (p, (-3 * m)%Z) prefixes.
Proof.
  intros H. assert (Hm : (m = -4 \/ m = -3 \/ m = -2 \/ m = -1 \/ m = 0 \/ m = 1 \/ m = 2 \/ m = 3 \/ m = 4 \/ m = 5 \/ m = 6)%Z) by lia.
  unfold prefixes. repeat (destruct Hm as [->|Hm]; [eexists; split; [reflexivity|cbn; tauto]|]).
  subst m. eexists; split; [reflexivity|cbn; tauto].
Qed.

Open Scope Q_scope.
(** [w] is [v] followed by [j] zeroes. *)
Lemma amount_zeroes (v w : N) (j : nat) (e d : Z) : (w = v * 10 ^ N.of_nat j)%N -> (e + Z.of_nat j = - d)%Z ->
  inject_Z (Z.of_N w) * Qpower (10 # 1) e == inject_Z (Z.of_N v) * Qpower (10 # 1) (- d).
Proof.
  intros -> He. rewrite N2Z.inj_mul, N2Z.inj_pow, inject_Z_mult, <- Qmult_assoc. apply Qmult_comp; [reflexivity|].
  rewrite <- He. rewrite nat_N_Z. change (Z.of_N 10) with 10%Z. rewrite (Zpower_Qpower 10) by lia.
  change (inject_Z 10) with (10 # 1). rewrite <- Qpower_plus by discriminate. rewrite Z.add_comm. reflexivity.
Qed.
Close Scope Q_scope.

Lemma value_zero_prefix z s : value_from 0 (zeroes z ++ s) = value_from 0 s.
Proof. rewrite value_app, value_zeroes. reflexivity. Qed.

Lemma leading_app a b : a <> "" -> ~ leading_zero (a ++ b) -> ~ leading_zero a.
Proof. intros Ha H [r ->]. apply H. exists (r ++ b). reflexivity. Qed.

Theorem balance_shown v d unit : v < 2 ^ 128 -> d < 256 -> exists number prefix int frac e before after,
  convert_balance_pretty v d unit = Some (Currency number (prefix ++ unit)) /\
  displays number int frac /\ In (prefix, e) prefixes /\
  (amount int frac e == inject_Z (Z.of_N v) * Qpower (10 # 1) (- Z.of_N d))%Q /\
  int ++ frac = zeroes before ++ dec_string v ++ zeroes after /\
  ((String.length int <= 3)%nat \/ prefix = "T") /\
  (0 < v -> ~ leading_zero int \/ (int = "0" /\ prefix = "a")).
Proof.
  intros Hv Hd. assert (Hl : (1 <= String.length (dec_string v) <= 39)%nat).
  { apply dec_length; [|lia]. eapply N.lt_le_trans; [exact Hv|]. vm_compute. discriminate. }
  destruct (cut_ok (dec_string v) d ltac:(lia) Hd) as (t & Ht & Hp).
  unfold convert_balance_pretty. rewrite convert_cut, Ht. cbn [obind].
  pose proof (dec_digits v) as Hdig. pose proof (dec_value v) as Hval. unfold digits_value in Hval.
  pose proof (dec_head v) as Hhead.
  assert (Hlz : 0 < v -> ~ leading_zero (dec_string v)) by (destruct Hhead as [[-> _]|(_ & H & _)]; [lia|auto]).
  destruct Hp as [a b m Hs Ha Hb He Hm H3|m He Hm H3|j m He Hm H3|z He|j m Hz Hm Hj He]; cbn [mag before_point after_point].
  - destruct (prefix_ok m Hm) as (p & -> & Hin). cbn [obind]. do 2 eexists. exists a, b. do 1 eexists. exists 0%nat, 0%nat.
    split; [reflexivity|]. rewrite Hs, all_digits_app, andb_true_iff in Hdig.
    split; [unfold displays; tauto|]. split; [exact Hin|]. split; [|split; [|split]].
    + unfold amount, digits_value. rewrite <- Hs, Hval. eapply (amount_zeroes v v 0); [cbn; lia|lia].
    + cbn [zeroes append]. rewrite str_app_nil. symmetry. exact Hs.
    + destruct H3 as [H3| ->]; [left; exact H3|right]. cbn in Hin. 
      repeat destruct Hin as [Hin|Hin]; try (injection Hin; intros; subst; reflexivity || discriminate); contradiction.
    + intros Hp. left. eapply leading_app; [exact Ha|]. rewrite <- Hs. auto.
  - destruct (prefix_ok m Hm) as (p & -> & Hin). cbn [obind]. do 2 eexists. exists (dec_string v), "". do 1 eexists. exists 0%nat, 0%nat.
    split; [reflexivity|]. assert (Hne : dec_string v <> "") by (apply nonempty_length; lia).
    split; [unfold displays; tauto|]. split; [exact Hin|]. split; [|split; [|split]].
    + unfold amount, digits_value. rewrite str_app_nil, Hval. eapply (amount_zeroes v v 0); [cbn; lia|cbn [String.length]; lia].
    + cbn [zeroes append]. rewrite str_app_nil. reflexivity.
    + auto.
    + auto.
  - destruct (prefix_ok m Hm) as (p & -> & Hin). cbn [obind]. do 2 eexists. exists (dec_string v ++ zeroes j), "". do 1 eexists. exists 0%nat, j.
    split; [reflexivity|].
    assert (Hne : dec_string v <> "") by (apply nonempty_length; lia).
    assert (Hne' : dec_string v ++ zeroes j <> "") by (apply nonempty_length; rewrite str_length_app; lia).
    split; [unfold displays; rewrite all_digits_app, zeroes_digits, Hdig; tauto|]. split; [exact Hin|]. split; [|split; [|split]].
    + unfold amount, digits_value. rewrite str_app_nil, value_app, Hval, value_zeroes. eapply (amount_zeroes v _ j); [reflexivity|cbn [String.length]; lia].
    + cbn [zeroes append]. rewrite str_app_nil. reflexivity.
    + left. rewrite str_length_app, zeroes_length. exact H3.
    + intros Hp. left. intros [r Hr]. apply (Hlz Hp). destruct (dec_string v) as [|c s']; [congruence|]. cbn in Hr. injection Hr as -> _. eexists. reflexivity.
  - cbn [unit_prefix obind]. do 2 eexists. exists "0", (zeroes z ++ dec_string v), (-18)%Z, (S z), 0%nat.
    split; [reflexivity|].
    assert (Hne' : zeroes z ++ dec_string v <> "") by (apply nonempty_length; rewrite str_length_app; lia).
    split; [unfold displays; rewrite all_digits_app, zeroes_digits, Hdig; split; [discriminate|]; cbn; tauto|].
    split; [cbn; tauto|]. split; [|split; [|split]].
    + unfold amount, digits_value. change ("0" ++ zeroes z ++ dec_string v) with (zeroes (S z) ++ dec_string v).
      rewrite value_zero_prefix, Hval. eapply (amount_zeroes v v 0); [cbn; lia|rewrite str_length_app, zeroes_length; lia].
    + cbn [zeroes append]. rewrite str_app_nil. reflexivity.
    + left. cbn. lia.
    + auto.
  - assert (Hv0 : v = 0) by (destruct Hhead as [[H _]|(_ & H & _)]; [exact H|exfalso; apply H; rewrite Hz; eexists; reflexivity]).
    destruct (prefix_ok m Hm) as (p & -> & Hin). cbn [obind]. do 2 eexists. exists (dec_string v), (zeroes j). do 1 eexists. exists 0%nat, j.
    split; [reflexivity|]. assert (Hne : dec_string v <> "") by (apply nonempty_length; lia).
    split; [unfold displays; rewrite zeroes_digits; split; [exact Hne|]; split; [exact Hdig|]; split; [reflexivity|]; right; split; [|reflexivity]; apply nonempty_length; rewrite zeroes_length; lia|].
    split; [exact Hin|]. split; [|split; [|split]].
    + unfold amount, digits_value. rewrite value_app, Hval, Hv0, value_zeroes. cbn [N.mul Z.of_N]. rewrite !Qmult_0_l. reflexivity.
    + reflexivity.
    + left. rewrite Hz. cbn. lia.
    + intros H. lia.
Qed.

Lemma displays_unique n i f i' f' : displays n i f -> displays n i' f' -> i = i' /\ f = f'.
Proof.
  assert (Hnd : forall a b a', all_digits a' = true -> a ++ "." ++ b = a' -> False).
  { intros a b a' H <-. rewrite all_digits_app in H. apply andb_true_iff in H. destruct H as [_ H]. discriminate. }
  intros (_ & D1 & D2 & [[-> ->]|[Hf ->]]) (_ & D1' & D2' & [[-> H]|[Hf' H]]).
  - auto.
  - exfalso. eapply Hnd; [exact D1|]. symmetry. exact H.
  - exfalso. eapply Hnd; [exact D1'|]. exact H.
  - revert i' H D1'. induction i as [|c i IH]; intros [|c' i'] H D1'; cbn [append] in H.
    + injection H as ->. auto.
    + injection H as <- _. discriminate.
    + injection H as -> _. discriminate.
    + injection H as -> H. cbn [all_digits] in D1, D1'. apply andb_true_iff in D1, D1'.
      destruct (IH (proj2 D1) _ H (proj2 D1')) as [-> ->]. auto.
Qed.

Lemma prefix_unique p e e' : In (p, e) prefixes -> In (p, e') prefixes -> e = e'.
Proof.
  unfold prefixes. cbn [In]. intros H H'.
  repeat destruct H as [H|H]; try contradiction; repeat destruct H' as [H'|H']; try contradiction; congruence.
Qed.

Lemma str_cancel_right a : forall b u, a ++ u = b ++ u -> a = b.
Proof.
  induction a as [|c a IH]; intros [|c' b] u H.
  - reflexivity.
  - exfalso. apply (f_equal String.length) in H. rewrite !str_length_app in H. cbn in H. lia.
  - exfalso. apply (f_equal String.length) in H. rewrite !str_length_app in H. cbn in H. lia.
  - cbn in H. injection H as -> H. f_equal. eapply IH, H.
Qed.
