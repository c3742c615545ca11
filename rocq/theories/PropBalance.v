(** C35, C36: displayed balances.  Only statements; proofs in ProofBalance.v and
    ProofBalance2.v, specification in
    SpecBalance.v. *)
From Coq Require Import QArith Lia.
From Verif Require Import Base Sign Balance SpecBalance ProofBalance ProofBalance2.
Local Open Scope string_scope.
Local Open Scope N_scope.

(** C35: whatever number and unit prefix are displayed, they denote exactly the value times
    ten to minus decimals. *)
Theorem c35_exact : forall value decimals unit number prefix int frac exponent,
  value < 2 ^ 128 -> decimals < 256 ->
  convert_balance_pretty value decimals unit = Some (Currency number (prefix ++ unit)) ->
  displays number int frac -> In (prefix, exponent) prefixes ->
  (amount int frac exponent == inject_Z (Z.of_N value) * Qpower (10 # 1) (- Z.of_N decimals))%Q.
Proof.
  intros v d unit number prefix int frac e Hv Hd Hc Hdis Hin.
  destruct (balance_shown v d unit Hv Hd) as (n' & p' & i' & f' & e' & b & a & Hc' & Hdis' & Hin' & Ham & _).
  rewrite Hc in Hc'. injection Hc' as <- Hp. apply str_cancel_right in Hp. subst p'.
  destruct (displays_unique _ _ _ _ _ Hdis Hdis') as [-> ->]. rewrite (prefix_unique _ _ _ Hin Hin'). exact Ham.
Qed.
Print Assumptions c35_exact.

(** C36: there is always an answer; its digits are those of the value, possibly with zeroes
    around; the integer part has one to three digits unless the prefix is tera, and does not
    begin with a zero unless the value is zero or less than one atto. *)
Theorem c36_complete : forall value decimals unit, value < 2 ^ 128 -> decimals < 256 ->
  exists number prefix int frac exponent before after,
    convert_balance_pretty value decimals unit = Some (Currency number (prefix ++ unit)) /\
    displays number int frac /\ In (prefix, exponent) prefixes /\
    int ++ frac = zeroes before ++ dec_string value ++ zeroes after /\
    ((String.length int <= 3)%nat \/ prefix = "T") /\
    (0 < value -> ~ leading_zero int \/ (int = "0" /\ prefix = "a")).
Proof.
  intros v d unit Hv Hd.
  destruct (balance_shown v d unit Hv Hd) as (n & p & i & f & e & b & a & H1 & H2 & H3 & _ & H4).
  exists n, p, i, f, e, b, a. auto.
Qed.
Print Assumptions c36_complete.

(** C36: the display is determined: it is the only one with the exact amount, exactly the
    known digits after the point, an integer part of one to three digits (more with tera
    only) and no leading zero (except below one atto). *)
Theorem c36_only : forall value decimals unit number prefix, 0 < value < 2 ^ 128 -> decimals < 256 ->
  (convert_balance_pretty value decimals unit = Some (Currency number (prefix ++ unit)) <->
   exists int frac exponent, displays number int frac /\ best_display value decimals int frac prefix exponent).
Proof.
  intros v d unit number prefix [Hp Hv] Hd.
  destruct (balance_shows v d unit Hv Hd) as (n & p & i & f & e & Hc & Hdis & Hs). split.
  - intros H. rewrite Hc in H. injection H as -> H. apply str_cancel_right in H. subst p. exists i, f, e. auto.
  - intros (i' & f' & e' & Hdis' & Hs'). destruct (shows_same v d Hp _ _ _ _ _ _ _ _ Hs Hs') as (-> & -> & -> & ->).
    rewrite Hc. f_equal. f_equal. destruct Hdis as (_ & _ & _ & [[F ->]|[F ->]]), Hdis' as (_ & _ & _ & [[F' ->]|[F' ->]]); congruence.
Qed.
Print Assumptions c36_only.

(** Zero: shown with the largest known precision, in the smallest prefix not below it. *)
Theorem c36_zero : forall decimals unit number prefix, decimals < 256 ->
  (convert_balance_pretty 0 decimals unit = Some (Currency number (prefix ++ unit)) <->
   exists exponent, In (prefix, exponent) prefixes /\ (exponent = -3 * Z.min 6 (Z.of_N decimals / 3))%Z /\
     displays number "0" (zeroes (Z.to_nat (Z.of_N decimals + exponent)))).
Proof.
  intros d unit number prefix Hd. destruct (zero_shown d unit Hd) as (n & p & e & Hc & Hin & He & Hdis). split.
  - intros H. rewrite Hc in H. injection H as -> H. apply str_cancel_right in H. subst p. exists e. auto.
  - intros (e' & Hin' & He' & Hdis'). rewrite <- He in He'. subst e'. rewrite (prefix_same _ _ _ Hin' Hin), Hc.
    f_equal. f_equal. destruct Hdis as (_ & _ & _ & [[F ->]|[F ->]]), Hdis' as (_ & _ & _ & [[F' ->]|[F' ->]]); congruence.
Qed.
Print Assumptions c36_zero.

(** The print of the value that is looked for is the usual one: digits with the right value,
    without leading zeroes. *)
Theorem c36_print : forall value,
  all_digits (dec_string value) = true /\ digits_value (dec_string value) = value /\
  (0 < value -> ~ leading_zero (dec_string value)).
Proof.
  intros v. split; [apply dec_digits|]. split; [apply dec_value|]. intros H.
  destruct (dec_head v) as [[-> _]|(_ & Hz & _)]; [discriminate|exact Hz].
Qed.
Print Assumptions c36_print.

(** The documented examples. *)
Example c35_case_pico : convert_balance_pretty 1 12 "WND" = Some (Currency "1" "pWND").
Proof. vm_compute. reflexivity. Qed.
Example c35_case_milli : convert_balance_pretty 123456000123 12 "WND" = Some (Currency "123.456000123" "mWND").
Proof. vm_compute. reflexivity. Qed.
Example c35_case_displays : displays "123.456000123" "123" "456000123".
Proof. unfold displays. cbn. repeat split; try discriminate. right. split; [discriminate|reflexivity]. Qed.
Example c35_case_amount : (amount "123" "456000123" (-3) == 123456000123 # 1000000000000)%Q.
Proof. vm_compute. reflexivity. Qed.
Example c36_case_atto : convert_balance_pretty 7 255 "X" = Some (Currency ("0." ++ zeroes 236 ++ "7") "aX").
Proof. vm_compute. reflexivity. Qed.
Example c36_case_tera : convert_balance_pretty 12345678901234567890 0 "X" = Some (Currency "12345678.901234567890" "TX").
Proof. vm_compute. reflexivity. Qed.
Example c36_case_zero : convert_balance_pretty 0 14 "SMTH" = Some (Currency "0.00" "pSMTH").
Proof. vm_compute. reflexivity. Qed.
Example c36_case_shows : best_display 123456000123 12 "123" "456000123" "m" (-3).
Proof.
  unfold best_display. split; [cbn; tauto|]. split; [discriminate|]. split; [reflexivity|]. split; [reflexivity|]. split; [vm_compute; reflexivity|].
  split; [reflexivity|]. split; [left; cbn; lia|]. intros _. left. intros [r H]. discriminate.
Qed.
(** Other ways to write the same amount are not displays. *)
Example c36_case_not_shows : ~ best_display 120 1 "12" "" "" 0 /\ ~ best_display 1200 0 "1200" "" "" 0 /\ ~ best_display 1200 0 "0" "001200" "M" 6.
Proof.
  split; [|split].
  - intros (_ & _ & _ & _ & _ & H & _). discriminate.
  - intros (_ & _ & _ & _ & _ & _ & [H|H] & _); [cbn in H; lia|discriminate].
  - intros (_ & _ & _ & _ & _ & _ & _ & H). destruct (H ltac:(lia)) as [H'|[_ H']]; [apply H'; eexists; reflexivity|discriminate].
Qed.
