(** Balances: the display is determined (C36). *)
From Coq Require Import Lia ZifyBool ZifyNat ZifyN QArith Qpower.
From Verif Require Import Base Sign Balance SpecBalance ProofBalance.
Local Open Scope string_scope.
Local Open Scope N_scope.

(** ** Digit strings *)

Lemma value_upper s : forall acc, all_digits s = true -> value_from acc s < (acc + 1) * 10 ^ N.of_nat (String.length s).
Proof.
  induction s as [|c s IH]; intros acc Hd; cbn [value_from String.length]; [rewrite N.pow_0_r; lia|].
  cbn [all_digits] in Hd. apply andb_true_iff in Hd. destruct Hd as [Hc Hd]. unfold is_digit in Hc.
  specialize (IH (10 * acc + (N_of_ascii c - 48)) Hd). rewrite Nat2N.inj_succ, N.pow_succ_r'. nia.
Qed.

Lemma digits_same a : forall b x y, all_digits a = true -> all_digits b = true -> String.length a = String.length b ->
  value_from x a = value_from y b -> x = y /\ a = b.
Proof.
  induction a as [|c a IH]; intros [|c' b] x y Ha Hb Hl Hv; cbn [String.length value_from] in *; try discriminate; [auto|].
  cbn [all_digits] in Ha, Hb. apply andb_true_iff in Ha, Hb. destruct Ha as [Hc Ha], Hb as [Hc' Hb]. unfold is_digit in Hc, Hc'.
  destruct (IH b _ _ Ha Hb (f_equal pred Hl) Hv) as [He ->].
  assert (x = y /\ N_of_ascii c = N_of_ascii c') as [-> Hn] by lia. split; [reflexivity|].
  f_equal. rewrite <- (ascii_N_embedding c), Hn. apply ascii_N_embedding.
Qed.

Lemma value_lower s : all_digits s = true -> ~ leading_zero s -> s <> "" ->
  10 ^ N.of_nat (String.length s) <= 10 * digits_value s.
Proof.
  intros Hd Hz Hne. destruct s as [|c s]; [congruence|]. unfold digits_value. cbn [value_from String.length].
  cbn [all_digits] in Hd. apply andb_true_iff in Hd. destruct Hd as [Hc _]. unfold is_digit in Hc.
  assert (N_of_ascii c <> 48).
  { intros Hn. apply Hz. exists s. f_equal. rewrite <- (ascii_N_embedding c), Hn. reflexivity. }
  pose proof (value_bound s (10 * 0 + (N_of_ascii c - 48))) as Hb.
  rewrite Nat2N.inj_succ, N.pow_succ_r'. nia.
Qed.

Lemma length_same a b : all_digits a = true -> all_digits b = true -> ~ leading_zero a -> ~ leading_zero b ->
  a <> "" -> b <> "" -> digits_value a = digits_value b -> String.length a = String.length b.
Proof.
  assert (Hle : forall a b, all_digits a = true -> all_digits b = true -> ~ leading_zero a -> a <> "" ->
    digits_value a = digits_value b -> (String.length a <= String.length b)%nat).
  { intros x y Hx Hy Hz Hne He. pose proof (value_lower x Hx Hz Hne) as H1. pose proof (value_upper y 0 Hy) as H2.
    unfold digits_value in *. rewrite He in H1.
    assert (H3 : 10 ^ N.of_nat (String.length x) < 10 ^ N.succ (N.of_nat (String.length y))) by (rewrite N.pow_succ_r'; lia).
    apply N.pow_lt_mono_r_iff in H3; lia. }
  intros Ha Hb Za Zb Na Nb He. apply Nat.le_antisymm; apply Hle; auto.
Qed.

(** ** The digits that are shown *)

Section Shown.
Variables (v d : N).
Hypothesis Hpos : 0 < v.

Definition extra (e : Z) : nat := Z.to_nat (- Z.of_N d - e).

Lemma shown_value int frac e :
  (amount int frac e == inject_Z (Z.of_N v) * Qpower (10 # 1) (- Z.of_N d))%Q ->
  Z.of_nat (String.length frac) = Z.max 0 (Z.of_N d + e) ->
  digits_value (int ++ frac) = v * 10 ^ N.of_nat (extra e).
Proof.
  intros Ha Hf. unfold amount in Ha.
  rewrite <- (amount_zeroes v (v * 10 ^ N.of_nat (extra e)) (extra e) (e - Z.of_nat (String.length frac)) (Z.of_N d) eq_refl) in Ha
    by (unfold extra; lia).
  apply Qmult_inj_r in Ha; [|apply Qpower_not_0; discriminate].
  rewrite inject_Z_injective in Ha. apply N2Z.inj in Ha. exact Ha.
Qed.

Lemma digits_of_value int frac e : all_digits int = true -> all_digits frac = true -> int <> "" -> ~ leading_zero int ->
  digits_value (int ++ frac) = v * 10 ^ N.of_nat (extra e) ->
  String.length (int ++ frac) = (String.length (dec_string v) + extra e)%nat.
Proof.
  intros Hi Hf Hn Hz Hv. rewrite <- (zeroes_length (extra e)), <- str_length_app.
  destruct (dec_head v) as [[H0 _]|(_ & Hdz & Hdn)]; [lia|].
  assert (Hlead : forall a b, a <> "" -> ~ leading_zero a -> ~ leading_zero (a ++ b)).
  { intros a b Ha H [r Hr]. destruct a as [|c a]; [congruence|]. cbn in Hr. injection Hr as -> _. apply H. eexists. reflexivity. }
  assert (Hne : forall a b, a <> "" -> a ++ b <> "") by (intros a b Ha; destruct a; [congruence|discriminate]).
  apply length_same; auto.
  - rewrite all_digits_app, Hi, Hf. reflexivity.
  - rewrite all_digits_app, dec_digits, zeroes_digits. reflexivity.
  - rewrite Hv. unfold digits_value. rewrite value_app, value_zeroes. change (value_from 0 (dec_string v)) with (digits_value (dec_string v)).
    rewrite dec_value. reflexivity.
Qed.

(** The place of the first digit. *)
Lemma place int frac p e : best_display v d int frac p e -> ~ leading_zero int ->
  (Z.of_nat (String.length int) + e = Z.of_nat (String.length (dec_string v)) - Z.of_N d)%Z.
Proof.
  intros (_ & Hne & Hi & Hf & Ha & Hl & _) Hz.
  pose proof (digits_of_value int frac e Hi Hf Hne Hz (shown_value _ _ _ Ha Hl)) as H.
  rewrite str_length_app in H. unfold extra in H. lia.
Qed.

Lemma place_atto frac p e : best_display v d "0" frac p e ->
  (Z.of_nat (String.length (dec_string v)) - Z.of_N d <= e)%Z.
Proof.
  intros (_ & Hne & Hi & Hf & Ha & Hl & _).
  pose proof (shown_value _ _ _ Ha Hl) as Hv.
  destruct (dec_head v) as [[H0 _]|(_ & Hdz & Hdn)]; [lia|].
  pose proof (value_lower (dec_string v) (dec_digits v) Hdz Hdn) as H1. rewrite dec_value in H1.
  unfold digits_value in Hv. rewrite value_app in Hv. change (value_from 0 "0") with 0 in Hv.
  pose proof (value_upper frac 0 Hf) as H2. rewrite Hv in H2.
  assert (Hlt : 10 ^ (N.of_nat (String.length (dec_string v)) + N.of_nat (extra e)) < 10 ^ N.succ (N.of_nat (String.length frac))).
  { rewrite N.pow_add_r, N.pow_succ_r'. nia. }
  apply N.pow_lt_mono_r_iff in Hlt; [|lia]. unfold extra in Hlt. lia.
Qed.

Lemma exponents p e : In (p, e) prefixes -> exists k, (e = 3 * k /\ -6 <= k <= 4)%Z.
Proof.
  unfold prefixes. cbn [In]. intros H. exists (e / 3)%Z.
  repeat destruct H as [H|H]; try contradiction; injection H as _ <-; cbn; lia.
Qed.

Lemma tera e : In ("T", e) prefixes -> e = 12%Z.
Proof. intros H. eapply prefix_unique; [exact H|]. cbn. tauto. Qed.
Lemma atto e : In ("a", e) prefixes -> e = (-18)%Z.
Proof. intros H. eapply prefix_unique; [exact H|]. cbn. tauto. Qed.

Lemma prefix_same p p' e : In (p, e) prefixes -> In (p', e) prefixes -> p = p'.
Proof.
  unfold prefixes. cbn [In]. intros H H'.
  repeat destruct H as [H|H]; try contradiction; repeat destruct H' as [H'|H']; try contradiction; congruence.
Qed.

Lemma exponent_same int frac p e int' frac' p' e' :
  best_display v d int frac p e -> best_display v d int' frac' p' e' -> e = e'.
Proof.
  intros S S'. pose proof S as (I & N1 & _ & _ & _ & _ & L & Z). pose proof S' as (I' & N1' & _ & _ & _ & _ & L' & Z').
  destruct (exponents _ _ I) as (k & Ek & Rk). destruct (exponents _ _ I') as (k' & Ek' & Rk').
  apply nonempty_length in N1, N1'.
  assert (T1 : (String.length int <= 3)%nat \/ e = 12%Z) by (destruct L as [L| ->]; [auto|right; apply tera, I]).
  assert (T2 : (String.length int' <= 3)%nat \/ e' = 12%Z) by (destruct L' as [L'| ->]; [auto|right; apply tera, I']).
  destruct (Z Hpos) as [Z1|[Z1 Z2]], (Z' Hpos) as [Z1'|[Z1' Z2']].
  - pose proof (place _ _ _ _ S Z1). pose proof (place _ _ _ _ S' Z1'). lia.
  - subst int' p'. pose proof (place _ _ _ _ S Z1). pose proof (place_atto _ _ _ S'). apply atto in I'. lia.
  - subst int p. pose proof (place_atto _ _ _ S). pose proof (place _ _ _ _ S' Z1'). apply atto in I. lia.
  - subst p p'. apply atto in I, I'. lia.
Qed.

Lemma shows_same int frac p e int' frac' p' e' :
  best_display v d int frac p e -> best_display v d int' frac' p' e' -> int = int' /\ frac = frac' /\ p = p' /\ e = e'.
Proof.
  intros S S'. assert (e = e') by (eapply exponent_same; eassumption). subst e'.
  pose proof S as (I & N1 & D1 & D2 & A & F & L & Z). pose proof S' as (I' & N1' & D1' & D2' & A' & F' & L' & Z').
  assert (p = p') by (eapply prefix_same; eassumption). subst p'.
  assert (Lf : String.length frac = String.length frac') by lia.
  assert (Li : String.length int = String.length int').
  { destruct (Z Hpos) as [Z1|[Z1 Z2]], (Z' Hpos) as [Z1'|[Z1' Z2']].
    - pose proof (place _ _ _ _ S Z1). pose proof (place _ _ _ _ S' Z1'). lia.
    - subst int' p. exfalso. pose proof (place _ _ _ _ S Z1). pose proof (place_atto _ _ _ S'). apply nonempty_length in N1. lia.
    - subst int p. exfalso. pose proof (place_atto _ _ _ S). pose proof (place _ _ _ _ S' Z1'). apply nonempty_length in N1'. lia.
    - congruence. }
  assert (Hv : value_from 0 (int ++ frac) = value_from 0 (int' ++ frac')).
  { pose proof (shown_value _ _ _ A F) as H1. pose proof (shown_value _ _ _ A' F') as H2. unfold digits_value in *. congruence. }
  rewrite !value_app in Hv. destruct (digits_same frac frac' _ _ D2 D2' Lf Hv) as [Hi ->].
  destruct (digits_same int int' _ _ D1 D1' Li Hi) as [_ ->]. auto.
Qed.
End Shown.

(** ** What the code shows *)

Lemma places t s d : plan s d t -> exists p, unit_prefix (mag t) = Some p /\ In (p, (-3 * mag t)%Z) prefixes /\
  Z.of_nat (String.length (match after_point t with Some x => x | None => "" end)) = Z.max 0 (Z.of_N d + -3 * mag t).
Proof.
  intros [a b m Hs Ha Hb He Hm H3|m He Hm H3|j m He Hm H3|z He|j m Hz Hm Hj He]; cbn [mag after_point];
    try (destruct (prefix_ok m Hm) as (p & Hp & Hin); exists p; split; [exact Hp|]; split; [exact Hin|]; rewrite ?zeroes_length; cbn [String.length]; lia).
  exists "a". split; [reflexivity|]. split; [cbn; tauto|]. rewrite str_length_app, zeroes_length. lia.
Qed.

Theorem balance_shows v d unit : v < 2 ^ 128 -> d < 256 -> exists number prefix int frac e,
  convert_balance_pretty v d unit = Some (Currency number (prefix ++ unit)) /\
  displays number int frac /\ best_display v d int frac prefix e.
Proof.
  intros Hv Hd. destruct (balance_shown v d unit Hv Hd) as (n & p & i & f & e & b & a & Hc & Hdis & Hin & Ham & _ & Hl & Hz).
  exists n, p, i, f, e. split; [exact Hc|]. split; [exact Hdis|]. pose proof Hdis as (D0 & D1 & D2 & _).
  unfold best_display. repeat (split; [assumption|]). split; [|split; [exact Hl|exact Hz]].
  assert (Hlen : (1 <= String.length (dec_string v) <= 39)%nat).
  { apply dec_length; [|lia]. eapply N.lt_le_trans; [exact Hv|]. vm_compute. discriminate. }
  destruct (cut_ok (dec_string v) d ltac:(lia) Hd) as (t & Ht & Hp).
  unfold convert_balance_pretty in Hc. rewrite convert_cut, Ht in Hc. cbn [obind] in Hc.
  destruct (places _ _ _ Hp) as (p' & Hp' & Hin' & Hlf). rewrite Hp' in Hc. cbn [obind] in Hc.
  injection Hc as Hn Hu. apply str_cancel_right in Hu. subst p'. rewrite (prefix_unique _ _ _ Hin Hin').
  rewrite <- Hlf. f_equal. f_equal.
  assert (Hdis' : displays n (before_point t) (match after_point t with Some x => x | None => "" end)).
  { assert (Hs : all_digits (dec_string v) = true) by apply dec_digits. assert (Hne : dec_string v <> "") by (apply nonempty_length; lia).
    destruct Hp as [a' b' m Hs' Ha Hb He Hm H3|m He Hm H3|j m He Hm H3|z He|j m Hz' Hm Hj He]; cbn [before_point after_point] in *; subst n; unfold displays.
    - rewrite Hs', all_digits_app, andb_true_iff in Hs. tauto.
    - tauto.
    - rewrite all_digits_app, zeroes_digits, Hs. split; [apply nonempty_length; rewrite str_length_app; lia|tauto].
    - rewrite all_digits_app, zeroes_digits, Hs. split; [discriminate|]. cbn. split; [reflexivity|]. split; [reflexivity|].
      right. split; [|reflexivity]. apply nonempty_length. rewrite str_length_app. lia.
    - rewrite zeroes_digits. repeat (split; [assumption|]). split; [reflexivity|].
      right. split; [|reflexivity]. apply nonempty_length. rewrite zeroes_length. lia. }
  destruct (displays_unique _ _ _ _ _ Hdis Hdis') as [_ ->]. reflexivity.
Qed.

Theorem zero_shown d unit : d < 256 -> exists number prefix e,
  convert_balance_pretty 0 d unit = Some (Currency number (prefix ++ unit)) /\
  In (prefix, e) prefixes /\ (e = -3 * Z.min 6 (Z.of_N d / 3))%Z /\ displays number "0" (zeroes (Z.to_nat (Z.of_N d + e))).
Proof.
  intros Hd. destruct (one_digit "0" d eq_refl Hd) as (t & Ht & Hp).
  unfold convert_balance_pretty. change (dec_string 0) with "0". rewrite convert_cut. unfold cut.
  change (u8_sub (N.of_nat (String.length "0") mod 256) 1) with (Some 0). cbn [obind]. rewrite Ht. cbn [obind].
  destruct (places _ _ _ Hp) as (p & -> & Hin & Hl). cbn [obind]. exists (match after_point t with Some x => before_point t ++ "." ++ x | None => before_point t end), p, (-3 * mag t)%Z.
  split; [reflexivity|]. split; [exact Hin|]. clear Hin Hl.
  assert (Hm : mag t = Z.min 6 (Z.of_N d / 3) /\
    (match after_point t with Some x => before_point t ++ "." ++ x | None => before_point t end) =
    (match Z.to_nat (Z.of_N d + -3 * mag t) with O => "0" | S k => "0" ++ "." ++ zeroes (S k) end)).
  { unfold cut_one_digit in Ht. change (u8_mul MAG_HIGHEST_POS 3) with (Some 18) in Ht. cbn [obind] in Ht. change ("0" =? "0")%string with true in Ht. cbv iota in Ht.
    destruct (N.leb_spec d 18) as [Hle|Hgt].
    - destruct (mod3 d) as [Hm|[Hm|Hm]]; rewrite Hm in Ht; injection Ht as <-; cbn [mag before_point after_point]; rewrite as_i8_small by arith.
      + split; [arith|]. replace (Z.to_nat _) with 0%nat by arith. reflexivity.
      + split; [arith|]. replace (Z.to_nat _) with 1%nat by arith. reflexivity.
      + split; [arith|]. replace (Z.to_nat _) with 2%nat by arith. reflexivity.
    - rewrite u8_sub_ok in Ht by lia. cbn [obind] in Ht. rewrite u8_sub_ok in Ht by lia. cbn [obind] in Ht. injection Ht as <-.
      unfold assist. cbn [mag before_point after_point]. change (as_i8 MAG_HIGHEST_POS) with 6%Z. split; [arith|].
      replace (Z.to_nat (Z.of_N d + -3 * 6)) with (S (N.to_nat (d - 18 - 1))) by lia. f_equal. f_equal.
      assert (Hz : forall k, zeroes k ++ "0" = zeroes (S k)) by (induction k as [|k IH]; [reflexivity|]; change (zeroes (S k) ++ "0") with (String "0" (zeroes k ++ "0")); rewrite IH; reflexivity).
      apply Hz. }
  destruct Hm as [Hm ->]. split; [rewrite Hm; reflexivity|].
  unfold displays. rewrite zeroes_digits. split; [discriminate|]. split; [reflexivity|]. split; [reflexivity|].
  destruct (Z.to_nat (Z.of_N d + -3 * mag t)) as [|k] eqn:Hk; [left; auto|right]. split; [discriminate|reflexivity].
Qed.
