(** C47, C48: the displayed lines determine the bytes. *)
From Coq Require Import Lia ZifyBool ZifyNat ZifyN QArith Qpower.
From Verif Require Import Base Compact Types Indicators Decode Sign Balance Cards Spec SpecBalance SpecCards SpecSee
  ProofBase ProofCompact ProofUtf8 ProofLeaf ProofRead ProofPeel ProofSpec ProofBalance ProofCards ProofCards2 ProofShow.
Local Open Scope string_scope.
Local Open Scope list_scope.

(** ** Strings *)

Lemma str_cancel_left a : forall x y : string, (a ++ x = a ++ y)%string -> x = y.
Proof. induction a as [|c a IH]; intros x y H; [exact H|]. injection H as H. apply IH, H. Qed.

Fixpoint clash (a b : string) : bool :=
  match a, b with
  | String x a', String y b' => if Ascii.eqb x y then clash a' b' else true
  | _, _ => false
  end.

Lemma clash_ne a : forall b x y, clash a b = true -> (a ++ x <> b ++ y)%string.
Proof.
  induction a as [|c a IH]; intros [|d b] x y H E; try discriminate H. cbn [clash] in H.
  cbn [String.append] in E. injection E as E1 E2. subst d. rewrite Ascii.eqb_refl in H. exact (IH _ _ _ H E2).
Qed.

Fixpoint without (c : ascii) (s : string) : bool :=
  match s with "" => true | String d r => negb (Ascii.eqb c d) && without c r end.

Lemma without_split c a : forall b x y, without c a = true -> without c b = true ->
  (a ++ String c x = b ++ String c y)%string -> a = b /\ x = y.
Proof.
  induction a as [|d a IH]; intros [|e b] x y Ha Hb E; cbn [String.append without] in *.
  - injection E as E. auto.
  - injection E as <- _. rewrite Ascii.eqb_refl in Hb. discriminate Hb.
  - injection E as -> _. rewrite Ascii.eqb_refl in Ha. discriminate Ha.
  - injection E as <- E. apply andb_true_iff in Ha, Hb. destruct (IH b x y) as [-> ->]; [tauto|tauto|exact E|auto].
Qed.

Lemma without_app c a b : without c (a ++ b)%string = (without c a && without c b)%bool.
Proof. induction a as [|d a IH]; [reflexivity|]. cbn [String.append without]. rewrite IH. apply andb_assoc. Qed.

Lemma digits_without c s : is_digit c = false -> all_digits s = true -> without c s = true.
Proof.
  intros Hc. induction s as [|d s IH]; intros H; [reflexivity|]. cbn [all_digits without] in *.
  apply andb_true_iff in H. rewrite IH by tauto. destruct (Ascii.eqb_spec c d) as [->|]; [|reflexivity].
  destruct H as [H _]. congruence.
Qed.

Lemma dec_inj a b : dec_string a = dec_string b -> a = b.
Proof. intros H. rewrite <- (dec_value a), <- (dec_value b), H. reflexivity. Qed.

Lemma hex_inj a b : is_bytes a -> is_bytes b -> hex_encode a = hex_encode b -> a = b.
Proof. intros Ha Hb H. apply (f_equal unhex) in H. rewrite !unhex_hex in H by assumption. congruence. Qed.

Lemma z_inj a b : z_string a = z_string b -> a = b.
Proof.
  assert (G : forall p x, dec_string x <> String "-" p).
  { intros p x H. pose proof (dec_digits x) as D. rewrite H in D. discriminate D. }
  assert (F : forall p, z_string (Zneg p) = String "-" (dec_string (Npos p))) by reflexivity.
  destruct a as [|p|p], b as [|q|q]; intros H; try reflexivity; rewrite ?F in H;
    try (exfalso; exact (G _ _ H)); try (exfalso; symmetry in H; exact (G _ _ H)).
  - apply dec_inj in H. discriminate H.
  - apply dec_inj in H. discriminate H.
  - apply dec_inj in H. injection H as ->. reflexivity.
  - injection H as H. apply dec_inj in H. injection H as ->. reflexivity.
Qed.

Lemma char_inj a b : scalar a = true -> scalar b = true ->
  string_of_bytes (utf8_encode a) = string_of_bytes (utf8_encode b) -> a = b.
Proof.
  intros Ha Hb H. rewrite !utf8_same in H by assumption.
  apply string_of_bytes_inj in H; [|apply utf8_is_bytes; assumption|apply utf8_is_bytes; assumption].
  assert (G : utf8s [a] = utf8s [b]) by (cbn [utf8s flat_map]; rewrite !app_nil_r; exact H).
  apply utf8s_inj in G; [congruence|cbn; rewrite Ha; reflexivity|cbn; rewrite Hb; reflexivity].
Qed.

Lemma string_empty l : string_of_bytes l = "" -> l = [].
Proof. destruct l; [reflexivity|discriminate]. Qed.

(** ** Lines *)

Lemma readable_inj n a p q : readable n a p = readable n a q -> p = q.
Proof.
  unfold readable. intros H. apply str_cancel_left in H. apply str_cancel_left in H.
  injection H as H. exact H.
Qed.

Lemma readable_ne n a b p q : clash (a ++ ": ")%string (b ++ ": ")%string = true -> readable n a p <> readable n b q.
Proof.
  unfold readable. intros H E. apply str_cancel_left in E. rewrite <- !str_assoc in E. exact (clash_ne _ _ _ _ H E).
Qed.

(** ** Bits *)

Lemma nth_bit_at w o elems i b : (b < 8 * usize w)%nat -> (i < List.length elems)%nat ->
  N.testbit (nth i elems 0%N) (N.of_nat b) =
  nth_bit w o elems (i * (8 * usize w) + match o with Lsb0 => b | Msb0 => 8 * usize w - 1 - b end).
Proof.
  intros Hb Hi. unfold nth_bit. set (m := (8 * usize w)%nat) in *. clearbody m.
  assert (G : forall x, (x < m)%nat -> ((i * m + x) / m = i /\ (i * m + x) mod m = x)%nat).
  { intros x Hx. split.
    - rewrite Nat.div_add_l by lia. rewrite Nat.div_small by lia. lia.
    - rewrite Nat.add_comm, Nat.mod_add by lia. apply Nat.mod_small, Hx. }
  destruct o.
  - destruct (G b Hb) as [-> ->]. reflexivity.
  - destruct (G (m - 1 - b)%nat ltac:(lia)) as [-> ->]. replace (m - 1 - (m - 1 - b))%nat with b by lia. reflexivity.
Qed.

Lemma fits_testbit w n b : fits w n = true -> (8 * usize w <= b)%nat -> N.testbit n (N.of_nat b) = false.
Proof.
  intros H Hb. unfold fits in H. apply N.ltb_lt in H. destruct n as [|p]; [apply N.bits_0|].
  apply N.bits_above_log2. apply N.log2_lt_pow2 in H; lia.
Qed.

Lemma the_bits_inj w o n1 n2 e1 e2 :
  forallb (fits w) e1 = true -> forallb (fits w) e2 = true ->
  (N.of_nat (List.length e1) = (n1 + 8 * N.of_nat (usize w) - 1) / (8 * N.of_nat (usize w)))%N ->
  (N.of_nat (List.length e2) = (n2 + 8 * N.of_nat (usize w) - 1) / (8 * N.of_nat (usize w)))%N ->
  (List.length (the_bits w o n1 e1) mod (8 * usize w) = 0)%nat ->
  the_bits w o n1 e1 = the_bits w o n2 e2 -> n1 = n2 /\ e1 = e2.
Proof.
  intros F1 F2 L1 L2 Hm E.
  assert (Hn : n1 = n2).
  { apply (f_equal (@List.length bool)) in E. unfold the_bits in E. rewrite !map_length, !seq_length in E. apply N2Nat.inj, E. }
  split; [exact Hn|]. subst n2.
  unfold the_bits in Hm. rewrite map_length, seq_length in Hm.
  assert (Hl : List.length e1 = List.length e2) by lia.
  assert (Hw : (0 < usize w)%nat) by (destruct w; cbn; lia).
  assert (Hlen : (List.length e1 * (8 * usize w) = N.to_nat n1)%nat).
  { set (m := (8 * usize w)%nat) in *. replace (8 * N.of_nat (usize w))%N with (N.of_nat m) in * by lia.
    assert (m <> 0)%nat by lia. clearbody m.
    pose proof (Nat.div_mod (N.to_nat n1) m ltac:(lia)) as D. rewrite Hm, Nat.add_0_r in D.
    assert (Q : ((n1 + N.of_nat m - 1) / N.of_nat m = N.of_nat (N.to_nat n1 / m))%N).
    { symmetry. apply (N.div_unique _ _ _ (N.of_nat m - 1)%N); [lia|]. lia. }
    rewrite Q in L1. apply Nat2N.inj in L1. rewrite L1, Nat.mul_comm. symmetry. exact D. }
  apply (nth_ext e1 e2 0%N 0%N Hl). intros i Hi.
  rewrite forallb_forall in F1, F2.
  assert (X1 : fits w (nth i e1 0%N) = true) by (apply F1, nth_In; exact Hi).
  assert (X2 : fits w (nth i e2 0%N) = true) by (apply F2, nth_In; lia).
  apply N.bits_inj. intros b. rewrite <- (N2Nat.id b).
  destruct (Nat.lt_ge_cases (N.to_nat b) (8 * usize w)) as [Hb|Hb].
  - rewrite (nth_bit_at w o e1 i _ Hb Hi), (nth_bit_at w o e2 i _ Hb ltac:(lia)).
    set (k := (i * (8 * usize w) + match o with Lsb0 => N.to_nat b | Msb0 => 8 * usize w - 1 - N.to_nat b end)%nat).
    assert (Hk : (k < N.to_nat n1)%nat).
    { rewrite <- Hlen. unfold k.
      assert (match o with Lsb0 => N.to_nat b | Msb0 => 8 * usize w - 1 - N.to_nat b end < 8 * usize w)%nat by (destruct o; lia).
      nia. }
    clearbody k. unfold the_bits in E.
    assert (Y : forall e, nth k (map (nth_bit w o e) (seq 0 (N.to_nat n1))) (nth_bit w o e 0) = nth_bit w o e k).
    { intros e. rewrite map_nth, seq_nth by exact Hk. reflexivity. }
    rewrite <- (Y e1), <- (Y e2), E. apply nth_indep. rewrite map_length, seq_length. exact Hk.
  - rewrite !(fits_testbit w) by assumption. reflexivity.
Qed.

Section See.
Variable base58 : fixed_kind -> bytes -> N -> string.
Variable identicon : bytes -> bytes.
Variable specs : short_specs.
Variable chain_name : string.
Variable bits_string : uwidth -> bit_order -> list bool -> string.
Variable types : list ty.
Hypothesis Hbase : base58_faithful base58.
Hypothesis Hbits : bits_faithful bits_string.
Hypothesis Hdec : (decimals specs < 256)%N.
Hypothesis Hapart : told_apart types.
Notation card := (card base58 identicon specs chain_name).
Notation enc := (enc types).
Notation view := (view types).
Notation lookup := (lookup types).

(** A card without its type information. *)
Definition ln (n : nat) (c : pcard) : string := show bits_string (ECard c n []).
Lemma ln_ok n c inf : show bits_string (ECard c n inf) = ln n c.
Proof. reflexivity. Qed.
Definition lines (l : list ecard) : list string := map (show bits_string) l.

Definition uint_ok (n : N) : Prop := (n < 2 ^ 128)%N.

Lemma currency_inj a b : uint_ok a -> uint_ok b ->
  currency_string (convert_balance_pretty a (decimals specs) (unit_name specs)) =
  currency_string (convert_balance_pretty b (decimals specs) (unit_name specs)) -> a = b.
Proof.
  intros Ha Hb H. pose proof (units_ok specs a) as Ua. pose proof (units_ok specs b) as Ub.
  apply (units_inj specs Hdec a b (convert_balance_pretty a (decimals specs) (unit_name specs)) Ha Hb Ua).
  replace (convert_balance_pretty a (decimals specs) (unit_name specs)) with
    (convert_balance_pretty b (decimals specs) (unit_name specs)); [exact Ub|].
  destruct (Ua Ha Hdec) as (na & pa & ia & fa & ea & Ea & Da & _).
  destruct (Ub Hb Hdec) as (nb & pb & ib & fb & eb & Eb & Db & _).
  rewrite Ea, Eb in *. cbn [currency_string number units] in H.
  assert (G : forall n i f, displays n i f -> without " " n = true).
  { intros n i f (_ & Hi & Hf & [(_ & ->)|(_ & ->)]); [apply digits_without; auto|].
    rewrite !without_app, (digits_without " " i), (digits_without " " f) by auto. reflexivity. }
  change (" " ++ (pa ++ unit_name specs))%string with (String " " (pa ++ unit_name specs)) in H.
  change (" " ++ (pb ++ unit_name specs))%string with (String " " (pb ++ unit_name specs)) in H.
  destruct (without_split " " na nb _ _ (G _ _ _ Da) (G _ _ _ Db) H) as [-> ->]. reflexivity.
Qed.

Ltac payload H := unfold ln, show in H; cbn [ec_card ec_indent] in H; apply readable_inj in H.

Lemma uint_line n w a b s db : uint_ok a -> uint_ok b ->
  ln n (specialty_card specs chain_name w a s db) = ln n (specialty_card specs chain_name w b s db) -> a = b.
Proof.
  intros Ha Hb. destruct s; cbn [specialty_card]; try destruct db; intros H; payload H;
    try (apply dec_inj in H; exact H); try (apply currency_inj; assumption).
  all: apply str_cancel_left, dec_inj in H; exact H.
Qed.

Lemma era_line n a b : ln n (PcEra a) = ln n (PcEra b) -> a = b.
Proof.
  destruct a as [|pa ha], b as [|pb hb]; intros H; payload H; try discriminate H; [reflexivity|].
  apply str_cancel_left in H.
  change (", period: " ++ dec_string pa)%string with (String "," (" period: " ++ dec_string pa)) in H.
  change (", period: " ++ dec_string pb)%string with (String "," (" period: " ++ dec_string pb)) in H.
  destruct (without_split "," (dec_string ha) (dec_string hb) _ _ ltac:(apply digits_without; [reflexivity|apply dec_digits])
              ltac:(apply digits_without; [reflexivity|apply dec_digits]) H) as [E1 E2].
  apply str_cancel_left in E2. apply dec_inj in E1, E2. congruence.
Qed.

Lemma fixed_line n k a b : is_bytes a -> is_bytes b -> List.length a = raw_len k -> List.length b = raw_len k ->
  ln n (fixed_card base58 identicon specs k a) = ln n (fixed_card base58 identicon specs k b) -> a = b.
Proof.
  intros Ha Hb La Lb. destruct k; cbn [fixed_card]; intros H; payload H;
    try (apply hex_inj; assumption); eapply Hbase; eassumption.
Qed.

Lemma hash_line n s a b : is_bytes a -> is_bytes b -> ln n (PcHash s a) = ln n (PcHash s b) -> a = b.
Proof. intros Ha Hb. destruct s; intros H; payload H; apply hex_inj; assumption. Qed.

Lemma u8_line n a b i j : is_bytes a -> is_bytes b -> ln n (seq_u8_card a i) = ln n (seq_u8_card b j) -> a = b.
Proof.
  intros Ha Hb. unfold seq_u8_card, text_of.
  destruct (utf8_valid a) eqn:Va, (utf8_valid b) eqn:Vb; intros H.
  - payload H. apply string_of_bytes_inj; assumption.
  - exfalso. revert H. apply readable_ne. reflexivity.
  - exfalso. revert H. apply readable_ne. reflexivity.
  - payload H. apply hex_inj; assumption.
Qed.

Lemma count_inj a b x : (nat_string a ++ x = nat_string b ++ x)%string -> a = b.
Proof. intros H. apply str_cancel_right in H. unfold nat_string in H. apply dec_inj in H. lia. Qed.

Lemma announced_line n a b i j : ln n (PcSequenceAnnounced a i) = ln n (PcSequenceAnnounced b j) -> a = b.
Proof. intros H. payload H. exact (count_inj _ _ _ H). Qed.

Lemma announced_u8 n a i b j : ln n (PcSequenceAnnounced a i) <> ln n (seq_u8_card b j).
Proof.
  unfold seq_u8_card. destruct (text_of b); unfold ln, show; cbn [ec_card ec_indent]; apply readable_ne; reflexivity.
Qed.

(** ** Kinds of values *)

Definition tagv (v : value) : nat :=
  match v with
  | VNum _ => 0 | VInt _ => 1 | VBool _ => 2 | VStr _ => 3 | VStruct _ => 4 | VTuple _ => 5
  | VEnum _ _ | VNever | VSig _ _ | VItem _ _ _ => 6
  | VSeq _ => 7 | VArr _ => 8 | VCompact _ => 9 | VBits _ _ => 10 | VRaw _ => 11 | VEra _ => 12
  end.
Definition tagt (t : ty) : nat :=
  match classify t with
  | SpRaw _ | SpHash => 11 | SpEra => 12 | SpPer _ => 0
  | _ =>
      match t_def t with
      | TComposite _ => 4 | TVariant _ => 6 | TSequence _ => 7 | TArray _ _ => 8 | TTuple _ => 5
      | TPrimitive (PrU _ | PrU256 | PrChar) => 0
      | TPrimitive (PrI _ | PrI256) => 1 | TPrimitive PrBool => 2 | TPrimitive PrStr => 3
      | TCompact _ => 9 | TBitSequence _ _ => 10
      end
  end.

Lemma enc_tag cpt id v b t : enc cpt id v = Some b -> lookup id = Some t -> tagv v = tagt t.
Proof.
  intros H Hl. unfold tagt. destruct v; cbn [Spec.enc] in H; rewrite Hl in H; unfold def_of in H;
    destruct (classify t); try discriminate H; try reflexivity;
    destruct (t_def t) as [| | | | |x| |]; try discriminate H; try reflexivity;
    destruct x; try discriminate H; reflexivity.
Qed.

Lemma enc_same_tag cpt cpt' id v v' b b' : enc cpt id v = Some b -> enc cpt' id v' = Some b' -> tagv v = tagv v'.
Proof.
  intros H H'. destruct (enc_lookup types _ _ _ _ H) as (t & Hl).
  rewrite (enc_tag _ _ _ _ _ H Hl), (enc_tag _ _ _ _ _ H' Hl). reflexivity.
Qed.

(** ** Lists of values *)

Definition shown (n : nat) (db : bool) (d : pdata) (L : list string) : Prop :=
  (exists inf, L = lines (card d inf n db)) \/
  (exists i j, d = DSequenceRaw i [] /\ L = [ln n (seq_u8_card [] j)]).

Definition seen (v1 : value) : Prop := forall cpt elem h id v2 b1 b2 d1 d2 l1 l2 n db L1 L2 r1 r2,
  enc cpt id v1 = Some b1 -> enc cpt id v2 = Some b2 ->
  view elem h id v1 = Some (d1, l1) -> view elem h id v2 = Some (d2, l2) ->
  shown n db d1 L1 -> shown n db d2 L2 -> nothing_hidden d1 -> L1 ++ r1 = L2 ++ r2 -> b1 = b2 /\ r1 = r2.

Lemma lines_app a b : lines (a ++ b) = lines a ++ lines b.
Proof. apply map_app. Qed.

Definition hidden_field (f : fdata pdata) : Prop := nothing_hidden (x_data (fd_data f)).

Lemma field_set_see cpt h k fs : forall vs1 vs2 B1 B2 l1 l2 i n db r1 r2, Forall seen vs1 ->
  enc_list (fun f => enc cpt (f_ty f)) fs vs1 = Some B1 -> enc_list (fun f => enc cpt (f_ty f)) fs vs2 = Some B2 ->
  view_list (fun f v => option_map (field_form f) (view false (or_label (pass_label h k) (field_label f)) (f_ty f) v)) fs vs1 = Some l1 ->
  view_list (fun f v => option_map (field_form f) (view false (or_label (pass_label h k) (field_label f)) (f_ty f) v)) fs vs2 = Some l2 ->
  Forall hidden_field l1 ->
  lines (card_field_set card i l1 n db) ++ r1 = lines (card_field_set card i l2 n db) ++ r2 -> B1 = B2 /\ r1 = r2.
Proof.
  induction fs as [|f fs IH]; intros [|v1 vs1] [|v2 vs2] B1 B2 l1 l2 i n db r1 r2 Hs E1 E2 V1 V2 Hh HL;
    cbn [enc_list view_list] in *; try discriminate.
  - injection E1 as <-. injection E2 as <-. injection V1 as <-. injection V2 as <-. auto.
  - destruct (enc cpt (f_ty f) v1) as [b1|] eqn:F1; [|discriminate E1].
    destruct (enc cpt (f_ty f) v2) as [b2|] eqn:F2; [|discriminate E2].
    match type of E1 with (match ?x with _ => _ end = _) => destruct x as [c1|] eqn:G1; [|discriminate E1] end.
    match type of E2 with (match ?x with _ => _ end = _) => destruct x as [c2|] eqn:G2; [|discriminate E2] end.
    injection E1 as <-. injection E2 as <-.
    destruct (view false (or_label (pass_label h k) (field_label f)) (f_ty f) v1) as [[d1 i1]|] eqn:W1; [|discriminate V1].
    destruct (view false (or_label (pass_label h k) (field_label f)) (f_ty f) v2) as [[d2 i2]|] eqn:W2; [|discriminate V2].
    cbn [option_map] in V1, V2.
    match type of V1 with (match ?x with _ => _ end = _) => destruct x as [m1|] eqn:X1; [|discriminate V1] end.
    match type of V2 with (match ?x with _ => _ end = _) => destruct x as [m2|] eqn:X2; [|discriminate V2] end.
    injection V1 as <-. injection V2 as <-.
    inversion Hs as [|? ? Hv Hvs]; subst. inversion Hh as [|? ? Hd Hds]; subst.
    cbn [card_field_set field_form fd_name fd_docs fd_data lines map List.app] in HL. injection HL as HL.
    unfold card_ext_with in HL. cbn [x_data x_info fst snd] in HL.
    change (map (show bits_string)) with lines in HL. rewrite !lines_app, <- !app_assoc in HL.
    destruct (Hv _ _ _ _ _ _ _ _ _ _ _ (n + 1)%nat db _ _ _ _ F1 F2 W1 W2 (or_introl (ex_intro _ _ eq_refl))
      (or_introl (ex_intro _ _ eq_refl)) Hd HL) as [-> HL'].
    destruct (IH _ _ _ _ _ _ _ _ _ _ _ Hvs G1 G2 X1 X2 Hds HL') as [-> ->]. auto.
Qed.

Lemma variant_fields_see cpt h fs vs1 vs2 B1 B2 l1 l2 n db r1 r2 : Forall seen vs1 ->
  enc_list (fun f => enc cpt (f_ty f)) fs vs1 = Some B1 -> enc_list (fun f => enc cpt (f_ty f)) fs vs2 = Some B2 ->
  fields_view types h fs vs1 = Some l1 -> fields_view types h fs vs2 = Some l2 ->
  Forall hidden_field l1 ->
  lines (card_variant_fields card l1 n db) ++ r1 = lines (card_variant_fields card l2 n db) ++ r2 -> B1 = B2 /\ r1 = r2.
Proof.
  intros Hs E1 E2 V1 V2 Hh HL.
  assert (Hset : lines (card_field_set card 0 l1 n db) ++ r1 = lines (card_field_set card 0 l2 n db) ++ r2 -> B1 = B2 /\ r1 = r2)
    by (eapply field_set_see; eassumption).
  unfold fields_view in *.
  destruct fs as [|f [|g fs]].
  - destruct vs1, vs2; try discriminate. injection V1 as <-. injection V2 as <-. apply Hset, HL.
  - destruct vs1 as [|v1 [|w1 vs1]], vs2 as [|v2 [|w2 vs2]]; cbn [view_list enc_list List.length] in *; try discriminate;
      repeat match goal with
        | A : match ?x with _ => _ end = Some _ |- _ => destruct x eqn:?; try discriminate A
        end; try discriminate.
    injection V1 as <-. injection V2 as <-. injection E1 as <-. injection E2 as <-. rewrite !app_nil_r.
    destruct (view false (or_label (pass_label h 1) (field_label f)) (f_ty f) v1) as [[d1 i1]|] eqn:W1; [|discriminate].
    destruct (view false (or_label (pass_label h 1) (field_label f)) (f_ty f) v2) as [[d2 i2]|] eqn:W2; [|discriminate].
    cbn [option_map] in *.
    repeat match goal with A : Some _ = Some _ |- _ => injection A as <- end.
    cbn [card_variant_fields field_form fd_name fd_data fd_docs] in HL.
    destruct (f_name f) eqn:Hn.
    + rewrite !app_nil_r in Hset. apply Hset. exact HL.
    + unfold card_unnamed_single_field in HL. cbn [field_form x_data x_info fst snd fd_data] in HL.
      inversion Hs as [|? ? Hv Hvs]; subst. inversion Hh as [|? ? Hd Hds]; subst.
      match goal with A : Spec.enc _ _ _ v1 = _, B : Spec.enc _ _ _ v2 = _ |- _ =>
        exact (Hv _ _ _ _ _ _ _ _ _ _ _ n db _ _ _ _ A B W1 W2 (or_introl (ex_intro _ _ eq_refl))
          (or_introl (ex_intro _ _ eq_refl)) Hd HL) end.
  - destruct vs1 as [|v1 [|w1 vs1]], vs2 as [|v2 [|w2 vs2]]; cbn [view_list] in V1, V2;
      repeat match goal with
        | A : match ?x with _ => _ end = Some _ |- _ => destruct x eqn:?; try discriminate A
        end; try discriminate.
    injection V1 as <-. injection V2 as <-.
    repeat match goal with A : Some (_ :: _) = Some ?x |- _ => is_var x; injection A as <- end.
    apply Hset. exact HL.
Qed.

Lemma composite_see cpt h fs vs1 vs2 B1 B2 l1 l2 inf1 inf2 n db r1 r2 : Forall seen vs1 ->
  enc_list (fun f => enc cpt (f_ty f)) fs vs1 = Some B1 -> enc_list (fun f => enc cpt (f_ty f)) fs vs2 = Some B2 ->
  fields_view types h fs vs1 = Some l1 -> fields_view types h fs vs2 = Some l2 ->
  Forall hidden_field l1 ->
  lines (card (DComposite l1) inf1 n db) ++ r1 = lines (card (DComposite l2) inf2 n db) ++ r2 -> B1 = B2 /\ r1 = r2.
Proof.
  intros Hs E1 E2 V1 V2 Hh HL.
  assert (Hset : lines (card_field_set card 0 l1 (n + 1) db) ++ r1 = lines (card_field_set card 0 l2 (n + 1) db) ++ r2 -> B1 = B2 /\ r1 = r2)
    by (eapply field_set_see; eassumption).
  unfold fields_view in *.
  destruct fs as [|f [|g fs]].
  - destruct vs1, vs2; try discriminate. injection V1 as <-. injection V2 as <-. apply Hset, HL.
  - destruct vs1 as [|v1 [|w1 vs1]], vs2 as [|v2 [|w2 vs2]]; cbn [view_list enc_list List.length] in *; try discriminate;
      repeat match goal with
        | A : match ?x with _ => _ end = Some _ |- _ => destruct x eqn:?; try discriminate A
        end; try discriminate.
    injection V1 as <-. injection V2 as <-. injection E1 as <-. injection E2 as <-. rewrite !app_nil_r.
    destruct (view false (or_label (pass_label h 1) (field_label f)) (f_ty f) v1) as [[d1 i1]|] eqn:W1; [|discriminate].
    destruct (view false (or_label (pass_label h 1) (field_label f)) (f_ty f) v2) as [[d2 i2]|] eqn:W2; [|discriminate].
    cbn [option_map] in *.
    repeat match goal with A : Some _ = Some _ |- _ => injection A as <- end.
    cbn [Cards.card field_form fd_name fd_data fd_docs] in HL.
    destruct (f_name f) eqn:Hn.
    + rewrite !app_nil_r in Hset. apply Hset. cbn [lines map List.app] in HL. apply cons_inv in HL. exact (proj2 HL).
    + unfold card_unnamed_single_field in HL. cbn [field_form x_data x_info fst snd fd_data] in HL.
      inversion Hs as [|? ? Hv Hvs]; subst. inversion Hh as [|? ? Hd Hds]; subst.
      match goal with A : Spec.enc _ _ _ v1 = _, B : Spec.enc _ _ _ v2 = _ |- _ =>
        exact (Hv _ _ _ _ _ _ _ _ _ _ _ n db _ _ _ _ A B W1 W2 (or_introl (ex_intro _ _ eq_refl))
          (or_introl (ex_intro _ _ eq_refl)) Hd HL) end.
  - destruct vs1 as [|v1 [|w1 vs1]], vs2 as [|v2 [|w2 vs2]]; cbn [view_list] in V1, V2;
      repeat match goal with
        | A : match ?x with _ => _ end = Some _ |- _ => destruct x eqn:?; try discriminate A
        end; try discriminate.
    injection V1 as <-. injection V2 as <-.
    repeat match goal with A : Some (_ :: _) = Some ?x |- _ => is_var x; injection A as <- end.
    apply Hset. cbn [Cards.card lines map List.app] in HL.
    apply cons_inv in HL. exact (proj2 HL).
Qed.

Lemma tuple_see cpt h k ids : forall vs1 vs2 B1 B2 l1 l2 n db r1 r2, Forall seen vs1 ->
  enc_list (enc cpt) ids vs1 = Some B1 -> enc_list (enc cpt) ids vs2 = Some B2 ->
  view_list (fun i v => match lookup i with Some ti => option_map (fun x => Ext (fst x) (snd x))
    (view false (or_label (pass_label h k) (path_label ti)) i v) | None => None end) ids vs1 = Some l1 ->
  view_list (fun i v => match lookup i with Some ti => option_map (fun x => Ext (fst x) (snd x))
    (view false (or_label (pass_label h k) (path_label ti)) i v) | None => None end) ids vs2 = Some l2 ->
  Forall (fun x => nothing_hidden (x_data x)) l1 ->
  lines (card_tuple card l1 n db) ++ r1 = lines (card_tuple card l2 n db) ++ r2 ->
  B1 = B2 /\ r1 = r2 /\ List.length l1 = List.length l2.
Proof.
  induction ids as [|f fs IH]; intros [|v1 vs1] [|v2 vs2] B1 B2 l1 l2 n db r1 r2 Hs E1 E2 V1 V2 Hh HL;
    cbn [enc_list view_list] in *; try discriminate.
  - injection E1 as <-. injection E2 as <-. injection V1 as <-. injection V2 as <-. auto.
  - destruct (enc cpt f v1) as [b1|] eqn:F1; [|discriminate E1].
    destruct (enc cpt f v2) as [b2|] eqn:F2; [|discriminate E2].
    match type of E1 with (match ?x with _ => _ end = _) => destruct x as [c1|] eqn:G1; [|discriminate E1] end.
    match type of E2 with (match ?x with _ => _ end = _) => destruct x as [c2|] eqn:G2; [|discriminate E2] end.
    injection E1 as <-. injection E2 as <-. destruct (lookup f) as [t|] eqn:Hl; [|discriminate V1].
    destruct (view false (or_label (pass_label h k) (path_label t)) f v1) as [[d1 i1]|] eqn:W1; [|discriminate V1].
    destruct (view false (or_label (pass_label h k) (path_label t)) f v2) as [[d2 i2]|] eqn:W2; [|discriminate V2].
    cbn [option_map] in V1, V2.
    match type of V1 with (match ?x with _ => _ end = _) => destruct x as [m1|] eqn:X1; [|discriminate V1] end.
    match type of V2 with (match ?x with _ => _ end = _) => destruct x as [m2|] eqn:X2; [|discriminate V2] end.
    injection V1 as <-. injection V2 as <-.
    inversion Hs as [|? ? Hv Hvs]; subst. inversion Hh as [|? ? Hd Hds]; subst.
    cbn [card_tuple] in HL. unfold card_ext_with in HL. cbn [x_data x_info fst snd] in HL.
    rewrite !lines_app, <- !app_assoc in HL.
    destruct (Hv _ _ _ _ _ _ _ _ _ _ _ n db _ _ _ _ F1 F2 W1 W2 (or_introl (ex_intro _ _ eq_refl))
      (or_introl (ex_intro _ _ eq_refl)) Hd HL) as [-> HL'].
    destruct (IH _ _ _ _ _ _ _ _ _ _ Hvs G1 G2 X1 X2 Hds HL') as (-> & -> & Hlen). cbn [List.length]. auto.
Qed.

Inductive shown_all (n : nat) (db : bool) : list pdata -> list string -> Prop :=
| SA_nil : shown_all n db [] []
| SA_cons d L ds M : shown n db d L -> shown_all n db ds M -> shown_all n db (d :: ds) (L ++ M).

Lemma elems_see el n db : forall vs1 vs2 B1 B2 ds1 ds2 L1 L2 r1 r2, Forall seen vs1 ->
  List.length vs1 = List.length vs2 ->
  enc_all (enc false el) vs1 = Some B1 -> enc_all (enc false el) vs2 = Some B2 ->
  elems_view types el vs1 = Some ds1 -> elems_view types el vs2 = Some ds2 ->
  shown_all n db ds1 L1 -> shown_all n db ds2 L2 -> Forall nothing_hidden ds1 ->
  L1 ++ r1 = L2 ++ r2 -> B1 = B2 /\ r1 = r2.
Proof.
  induction vs1 as [|v1 vs1 IH]; intros [|v2 vs2] B1 B2 ds1 ds2 L1 L2 r1 r2 Hs Hlen E1 E2 V1 V2 S1 S2 Hh HL;
    cbn [enc_all elems_view List.length] in *; try discriminate.
  - injection E1 as <-. injection E2 as <-. injection V1 as <-. injection V2 as <-.
    inversion S1; inversion S2; subst. auto.
  - injection Hlen as Hlen.
    destruct (enc false el v1) as [b1|] eqn:F1; [|discriminate E1].
    destruct (enc false el v2) as [b2|] eqn:F2; [|discriminate E2].
    match type of E1 with (match ?x with _ => _ end = _) => destruct x as [c1|] eqn:G1; [|discriminate E1] end.
    match type of E2 with (match ?x with _ => _ end = _) => destruct x as [c2|] eqn:G2; [|discriminate E2] end.
    injection E1 as <-. injection E2 as <-.
    destruct (view true HNone el v1) as [[d1 i1]|] eqn:W1; [|discriminate V1].
    destruct (view true HNone el v2) as [[d2 i2]|] eqn:W2; [|discriminate V2].
    match type of V1 with (match ?x with _ => _ end = _) => destruct x as [m1|] eqn:X1; [|discriminate V1] end.
    match type of V2 with (match ?x with _ => _ end = _) => destruct x as [m2|] eqn:X2; [|discriminate V2] end.
    injection V1 as <-. injection V2 as <-.
    inversion Hs as [|? ? Hv Hvs]; subst. inversion Hh as [|? ? Hd Hds]; subst.
    inversion S1 as [|? K1 ? M1 Y1 Z1]; subst. inversion S2 as [|? K2 ? M2 Y2 Z2]; subst.
    rewrite <- !app_assoc in HL.
    destruct (Hv _ _ _ _ _ _ _ _ _ _ _ n db _ _ _ _ F1 F2 W1 W2 Y1 Y2 Hd HL) as [-> HL'].
    destruct (IH _ _ _ _ _ _ _ _ _ Hvs Hlen eq_refl G2 eq_refl X2 Z1 Z2 Hds HL') as [-> ->]. auto.
Qed.

(** ** Collected sequences *)

Lemma map_opt_forall2 {A B} (f : A -> option B) : forall l r, map_opt f l = Some r -> Forall2 (fun x y => f x = Some y) l r.
Proof.
  induction l as [|x l IH]; intros r H; cbn [map_opt] in H; [injection H as <-; constructor|].
  destruct (f x) as [y|] eqn:Hf; [|discriminate H]. destruct (map_opt f l) as [ys|] eqn:Hm; [|discriminate H].
  injection H as <-. constructor; auto.
Qed.

Lemma width_eqb_ok a b : width_eqb a b = true -> a = b.
Proof. destruct a, b; intros H; try reflexivity; discriminate H. Qed.

(** What a collected list was made of. *)
Definition collected_from (ds : list pdata) (s : sequence) : Prop :=
  ds <> [] /\
  match s with
  | SeqU w l => ds = map (fun x => DUInt w x SuNone) l
  | SeqVecU8 l _ => Forall2 (fun d a => (exists i, d = DSequence i (SeqU U8 a)) \/ (a = [] /\ exists i, d = DSequenceRaw i [])) ds l
  end.

Lemma collect_from ds s : collect ds = Some s -> collected_from ds s.
Proof.
  destruct ds as [|d ds]; [discriminate|]. intros H. split; [discriminate|]. revert H. unfold collect.
  destruct d as [| | | | | |w n s0| | | | | | | | | | | |i s0|]; try discriminate.
  - destruct (map_opt _ _) as [l|] eqn:Hm; [|discriminate]. intros H; injection H as <-.
    apply map_opt_forall2 in Hm. revert l Hm. generalize (DUInt w n s0 :: ds) as ds'. intros ds'.
    induction 1 as [|x y ds' l Hx Hl IH]; [reflexivity|]. cbn [map]. f_equal; [|exact IH].
    destruct x as [| | | | | |w' n' [] | | | | | | | | | | | | |]; try discriminate Hx.
    destruct (width_eqb w w') eqn:Hw; [|discriminate Hx]. apply width_eqb_ok in Hw. subst w'. congruence.
  - destruct s0 as [[] l0|]; try discriminate.
    destruct (map_opt _ _) as [l|] eqn:Hm; [|discriminate]. intros H; injection H as <-.
    apply map_opt_forall2 in Hm. revert l Hm. generalize (DSequence i (SeqU U8 l0) :: ds) as ds'. intros ds'.
    induction 1 as [|x y ds' l Hx Hl IH]; [constructor|]. constructor; [|exact IH].
    destruct x as [| | | | | | | | | | | | | | | | | |i' [[] l'|]|i' [|]]; try discriminate Hx.
    + destruct (infos_eqb i i'); [|discriminate Hx]. injection Hx as <-. eauto.
    + injection Hx as <-. eauto.
Qed.

Lemma shown_ints n db w l : shown_all n db (map (fun x => DUInt w x SuNone) l) (map (fun x => ln n (PcUInt w x)) l).
Proof.
  induction l as [|x l IH]; [constructor|]. cbn [map]. change (?a :: ?b) with ([a] ++ b).
  constructor; [|exact IH]. left. exists []. reflexivity.
Qed.

Lemma sequence_cases inf ds n db L : shown n db (sequence_of inf ds) L ->
  (exists a j, a <> [] /\ ds = map (fun x => DUInt U8 x SuNone) a /\ L = [ln n (seq_u8_card a j)]) \/
  (exists j M, L = ln n (PcSequenceAnnounced (List.length ds) j) :: M /\ shown_all (n + 1) db ds M) \/
  (ds = [] /\ exists j, L = [ln n (seq_u8_card [] j)]).
Proof.
  unfold sequence_of. intros [[i ->] | (i & j & H & ->)].
  - destruct (collect ds) as [s|] eqn:Hc.
    + apply collect_from in Hc. destruct Hc as [Hne Hc]. cbn [Cards.card card_sequence]. destruct s as [w l|l inner].
      * assert (G : exists j M, lines (ECard (PcSequenceAnnounced (List.length l) (map flatten inf)) n i
                     :: map (fun x => ECard (PcUInt w x) (n + 1) []) l) =
                   ln n (PcSequenceAnnounced (List.length ds) j) :: M /\ shown_all (n + 1) db ds M).
        { exists (map flatten inf), (map (fun x => ln (n + 1) (PcUInt w x)) l). rewrite Hc, map_length. split.
          - unfold lines. cbn [map]. rewrite map_map. reflexivity.
          - apply shown_ints. }
        destruct w; try (right; left; exact G). left. exists l, (map flatten inf). repeat split; [|exact Hc].
        intros ->. apply Hne, Hc.
      * right; left. exists (map flatten inf), (map (fun x => ln (n + 1) (seq_u8_card x (map flatten inner))) l).
        assert (Hlen : List.length ds = List.length l) by (clear Hne; induction Hc; cbn [List.length]; auto). rewrite Hlen. clear Hlen. split; [unfold lines, card_sequence; cbv zeta; cbn [map]; rewrite map_map; reflexivity|].
        clear Hne. induction Hc as [|d a ds l [(i' & ->)|(-> & i' & ->)] _ IH]; [constructor| |];
          cbn [map]; (match goal with |- shown_all _ _ _ (?a :: ?b) => change (a :: b) with ([a] ++ b) end);
          (constructor; [|exact IH]).
        -- left. exists []. reflexivity.
        -- right. eauto.
    + right; left. exists (map flatten inf), (lines (card_elements card ds (n + 1) db)). split; [reflexivity|].
      clear Hc. induction ds as [|d ds IH]; [constructor|]. cbn [card_elements]. rewrite lines_app. constructor; [|exact IH].
      left. exists []. reflexivity.
  - destruct (collect ds) as [s|]; [discriminate H|]. injection H as _ ->. right; right. eauto.
Qed.

Lemma hidden_elements inf ds : nothing_hidden (sequence_of inf ds) -> Forall nothing_hidden ds.
Proof.
  unfold sequence_of. destruct (collect ds) as [s|] eqn:Hc.
  - intros _. apply collect_from in Hc. destruct Hc as [_ Hc]. destruct s as [w l|l inner].
    + subst ds. apply Forall_forall. intros d Hd. apply in_map_iff in Hd. destruct Hd as (x & <- & _). split; exact I.
    + induction Hc as [|d a ds l Hd _ IH]; constructor; [|exact IH].
      destruct Hd as [(i & ->)|(_ & i & ->)]; repeat split.
  - intros H. apply everywhere_raw in H. apply H.
Qed.

(** Integers are in range. *)
Lemma uint_fits v : forall cpt elem h id b w x s l, enc cpt id v = Some b ->
  view elem h id v = Some (DUInt w x s, l) -> fits w x = true.
Proof.
  induction v as [n|z|b|cs|vs IH|vs IH|i vs IH| |vs IH|vs IH|v IH|n elems|bs'|er|i bs'|i j vs IH] using value_ind';
    intros cpt elem h id bs w x s l E V.
  all: destruct (lookup id) as [t|] eqn:El; [|cbn [Spec.view] in V; rewrite El in V; discriminate V].
  all: cbn [Spec.view Spec.enc] in V, E; rewrite El in V, E.
  all: try (repeat match type of V with (match ?y with _ => _ end = _) => destruct y eqn:?; try discriminate V end; discriminate V).
  - repeat match type of V with (match ?y with _ => _ end = _) => destruct y eqn:?; try discriminate V end;
      injection V as <- <- _; unfold guard in E;
      match type of E with (if ?c then _ else _) = _ => destruct c eqn:?; [reflexivity|discriminate E] end.
  - destruct (def_of t) as [[fs| | | | | | |]|] eqn:Ed; try discriminate V.
    destruct elem; [|destruct (view_list _ _ _) in V; discriminate V].
    destruct (transparent t); [|destruct (view_list _ _ _) in V; discriminate V].
    destruct fs as [|f [|g fs]]; try (destruct (view_list _ _ _) in V; discriminate V).
    destruct vs as [|v [|w' vs]]; try (destruct (view_list _ _ _) in V; discriminate V).
    destruct (cpt && _); [discriminate E|]. cbn [enc_list] in E.
    destruct (enc cpt (f_ty f) v) as [b|] eqn:Ev; [|discriminate E].
    inversion IH as [|? ? Hv _]; subst. eapply Hv; eassumption.
  - destruct (def_of t) as [[]|] eqn:Ed; try discriminate V.
    destruct (peel_from types [] elem0) as [[inf fin]|]; [|discriminate V].
    match type of V with (match ?y with _ => _ end = _) => destruct y as [ds|]; [|discriminate V] end.
    unfold sequence_of in V. destruct (collect ds); discriminate V.
  - destruct (def_of t) as [[]|] eqn:Ed; try discriminate V.
    destruct (peel_from types [] elem0) as [[inf fin]|]; [|discriminate V].
    match type of V with (match ?y with _ => _ end = _) => destruct y as [ds|]; [|discriminate V] end.
    unfold sequence_of in V. destruct (collect ds); discriminate V.
  - destruct (def_of t) as [[]|] eqn:Ed; try discriminate V. destruct cpt; [discriminate E|].
    match type of V with (match ?y with _ => _ end = _) => destruct y as [[d' l']|] eqn:Ev; [|discriminate V] end.
    injection V as -> _. eapply IH; eassumption.
  - clear E. repeat match type of V with (match ?y with _ => _ end = _) => destruct y; try discriminate V end.
    cbv zeta in V. destruct (classify t) as [| | | | | |[] ]; discriminate V.
Qed.

Lemma elems_length el : forall vs ds, elems_view types el vs = Some ds -> List.length ds = List.length vs.
Proof.
  induction vs as [|v vs IH]; intros ds H; cbn [elems_view] in H; [injection H as <-; reflexivity|].
  destruct (view true HNone el v) as [[d i]|]; [|discriminate H].
  match type of H with (match ?x with _ => _ end = _) => destruct x as [m|]; [|discriminate H] end.
  injection H as <-. cbn [List.length]. rewrite (IH m eq_refl). reflexivity.
Qed.

Lemma elems_bytes el : forall vs B a, enc_all (enc false el) vs = Some B ->
  elems_view types el vs = Some (map (fun x => DUInt U8 x SuNone) a) -> is_bytes a.
Proof.
  induction vs as [|v vs IH]; intros B a E H; cbn [elems_view enc_all] in E, H.
  - destruct a; [constructor|discriminate H].
  - destruct (view true HNone el v) as [[d i]|] eqn:W; [|discriminate H].
    match type of H with (match ?x with _ => _ end = _) => destruct x as [m|] eqn:Em; [|discriminate H] end.
    destruct (enc false el v) as [b|] eqn:F; [|discriminate E].
    match type of E with (match ?x with _ => _ end = _) => destruct x as [c|] eqn:Ec; [|discriminate E] end.
    destruct a as [|x a]; [discriminate H|]. cbn [map] in H. injection H as -> ->. constructor.
    + pose proof (uint_fits v _ _ _ _ _ _ _ _ _ F W) as Hf. unfold fits in Hf. apply N.ltb_lt in Hf. exact Hf.
    + exact (IH _ _ eq_refl eq_refl).
Qed.

Lemma shown_some n db ds : exists L, shown_all n db ds L.
Proof.
  induction ds as [|d ds [L IH]]; [exists []; constructor|].
  exists (lines (card d [] n db) ++ L). constructor; [left; eauto|exact IH].
Qed.

Lemma seq_see t el vs1 vs2 B1 B2 d1 d2 l1 l2 n db L1 L2 r1 r2 : Forall seen vs1 ->
  enc_all (enc false el) vs1 = Some B1 -> enc_all (enc false el) vs2 = Some B2 ->
  seq_view types t el vs1 = Some (d1, l1) -> seq_view types t el vs2 = Some (d2, l2) ->
  shown n db d1 L1 -> shown n db d2 L2 -> nothing_hidden d1 -> L1 ++ r1 = L2 ++ r2 ->
  B1 = B2 /\ List.length vs1 = List.length vs2 /\ r1 = r2.
Proof.
  intros Hs E1 E2 V1 V2 S1 S2 Hh HL. unfold seq_view in V1, V2.
  destruct (peel_from types [] el) as [[inf fin]|]; [|discriminate V1].
  destruct (elems_view types el vs1) as [ds1|] eqn:W1; [|discriminate V1].
  destruct (elems_view types el vs2) as [ds2|] eqn:W2; [|discriminate V2].
  injection V1 as <- <-. injection V2 as <- <-. apply hidden_elements in Hh.
  pose proof (elems_length _ _ _ W1) as N1. pose proof (elems_length _ _ _ W2) as N2.
  apply sequence_cases in S1. apply sequence_cases in S2.
  destruct S1 as [(a1 & j1 & Ha1 & Hd1 & ->)|[(j1 & M1 & -> & S1)|(Hd1 & j1 & ->)] ];
    destruct S2 as [(a2 & j2 & Ha2 & Hd2 & ->)|[(j2 & M2 & -> & S2)|(Hd2 & j2 & ->)] ];
    cbn [List.app] in HL; apply cons_inv in HL; destruct HL as [HE HL];
    try (exfalso; exact (announced_u8 _ _ _ _ _ HE)); try (exfalso; symmetry in HE; exact (announced_u8 _ _ _ _ _ HE)).
  - subst ds1 ds2. pose proof (elems_bytes _ _ _ _ E1 W1) as I1. pose proof (elems_bytes _ _ _ _ E2 W2) as I2.
    apply (u8_line _ _ _ _ _ I1 I2) in HE. subst a2.
    assert (Hlen : List.length vs1 = List.length vs2) by congruence.
    destruct (shown_some (n + 1) db (map (fun x => DUInt U8 x SuNone) a1)) as [L HS].
    destruct (elems_see _ _ _ _ _ _ _ _ _ _ _ [] [] Hs Hlen E1 E2 W1 W2 HS HS Hh eq_refl) as [-> _]. auto.
  - subst ds1 ds2. pose proof (elems_bytes _ _ _ _ E1 W1) as I1. exfalso. apply Ha1.
    apply (u8_line _ _ _ _ _ I1 ltac:(constructor) HE).
  - apply announced_line in HE. assert (Hlen : List.length vs1 = List.length vs2) by congruence.
    destruct (elems_see _ _ _ _ _ _ _ _ _ _ _ _ _ Hs Hlen E1 E2 W1 W2 S1 S2 Hh HL) as [-> ->]. auto.
  - subst ds1 ds2. pose proof (elems_bytes _ _ _ _ E2 W2) as I2. exfalso. apply Ha2.
    symmetry. apply (u8_line _ _ _ _ _ ltac:(constructor) I2 HE).
  - subst ds1 ds2. cbn [List.length] in N1, N2. destruct vs1; [|discriminate N1]. destruct vs2; [|discriminate N2].
    cbn [enc_all] in E1, E2. injection E1 as <-. injection E2 as <-. auto.
Qed.

(** ** Enums *)

Lemma by_index_in l i v : by_index l i = Some v -> In v l /\ v_index v = i.
Proof. intros H. apply find_some in H. destruct H as [H1 H2]. apply N.eqb_eq in H2. auto. Qed.

Lemma same_name id t l i j a b : lookup id = Some t -> t_def t = TVariant l -> by_index l i = Some a ->
  by_index l j = Some b -> v_name a = v_name b -> i = j.
Proof.
  intros Hl Hd Ha Hb Hn. apply by_index_in in Ha, Hb. destruct Ha as [Ia <-], Hb as [Ib <-].
  exact (Hapart id t l a b Hl Hd Ia Ib (or_introl Hn)).
Qed.

Lemma same_sig id t l i j a b k : lookup id = Some t -> t_def t = TVariant l -> by_index l i = Some a ->
  by_index l j = Some b -> variant_sig types t a = Some k -> variant_sig types t b = Some k -> i = j.
Proof.
  intros Hl Hd Ha Hb Hn Hm. apply by_index_in in Ha, Hb. destruct Ha as [Ia <-], Hb as [Ib <-].
  apply (Hapart id t l a b Hl Hd Ia Ib). right. eauto.
Qed.

Lemma def_of_def t d : def_of t = Some d -> t_def t = d.
Proof. unfold def_of. destruct (classify t); congruence. Qed.

Lemma pallet_inner t v inner items : pallet_items types t v = Some (inner, items) ->
  exists id, lookup id = Some inner /\ t_def inner = TVariant items.
Proof.
  unfold pallet_items. destruct (v_fields v) as [|f [|? ?]]; try discriminate.
  destruct (lookup (f_ty f)) as [inner'|] eqn:Hl; [|discriminate].
  destruct (t_def inner') eqn:Hd; try discriminate.
  destruct (item_eqb _ _); [|discriminate]. intros H. injection H as <- <-. eauto.
Qed.

Lemma shown_leaf n db d L : (forall i, d <> DSequenceRaw i []) -> shown n db d L -> exists inf, L = lines (card d inf n db).
Proof. intros Hn [H|(i & j & H & _)]; [exact H|]. destruct (Hn _ H). Qed.

Lemma guard_some b l l' : guard b l = Some l' -> b = true /\ l = l'.
Proof. destruct b; [|discriminate]. intros H. injection H as <-. auto. Qed.

Lemma fits_u128 w n : fits w n = true -> uint_ok n.
Proof.
  unfold fits, uint_ok. intros H. apply N.ltb_lt in H. eapply N.lt_le_trans; [exact H|].
  apply N.pow_le_mono_r; [discriminate|]. destruct w; cbn; discriminate.
Qed.

Ltac leaf S1 S2 HL HE :=
  apply shown_leaf in S1; [|discriminate]; apply shown_leaf in S2; [|discriminate];
  destruct S1 as [? ->], S2 as [? ->]; cbn [Cards.card lines map List.app] in HL;
  apply cons_inv in HL; destruct HL as [HE HL]; rewrite !ln_ok in HE.

Lemma see_num n1 : seen (VNum n1).
Proof.
  intros cpt elem h id v2 b1 b2 d1 d2 l1 l2 n db L1 L2 r1 r2 E1 E2 V1 V2 S1 S2 Hh HL.
  destruct (enc_lookup types _ _ _ _ E1) as (t & Hl). pose proof (enc_same_tag _ _ _ _ _ _ _ E1 E2) as Ht.
  destruct v2 as [n2| | | | | | | | | | | | | | |]; cbn [tagv] in Ht; try discriminate Ht; clear Ht.
  cbn [Spec.enc Spec.view] in E1, E2, V1, V2. rewrite Hl in E1, E2, V1, V2. unfold def_of in *.
  assert (G : forall def : typedef,
    match def with
    | TPrimitive (PrU w) => guard (fits w n1) (if cpt then compact_enc n1 else le_bytes (usize w) n1)
    | TPrimitive PrU256 => guard (negb cpt && (n1 <? 2 ^ 256)%N) (le_bytes 32 n1)
    | TPrimitive PrChar => guard (negb cpt && scalar n1) (le_bytes 4 n1)
    | _ => None
    end = Some b1 ->
    match def with
    | TPrimitive (PrU w) => guard (fits w n2) (if cpt then compact_enc n2 else le_bytes (usize w) n2)
    | TPrimitive PrU256 => guard (negb cpt && (n2 <? 2 ^ 256)%N) (le_bytes 32 n2)
    | TPrimitive PrChar => guard (negb cpt && scalar n2) (le_bytes 4 n2)
    | _ => None
    end = Some b2 ->
    match def with
    | TPrimitive (PrU w) => Some (DUInt w n1 (uint_labels h), own_info t)
    | TPrimitive PrU256 => Some (DU256 n1, own_info t)
    | TPrimitive PrChar => Some (DChar n1, own_info t)
    | _ => None
    end = Some (d1, l1) ->
    match def with
    | TPrimitive (PrU w) => Some (DUInt w n2 (uint_labels h), own_info t)
    | TPrimitive PrU256 => Some (DU256 n2, own_info t)
    | TPrimitive PrChar => Some (DChar n2, own_info t)
    | _ => None
    end = Some (d2, l2) -> b1 = b2 /\ r1 = r2).
  { clear E1 E2 V1 V2. intros def E1 E2 V1 V2. destruct def as [| | | | |x| |]; try discriminate V1.
    destruct x; try discriminate V1; injection V1 as <- _; injection V2 as <- _;
      apply guard_some in E1, E2; destruct E1 as [F1 <-], E2 as [F2 <-]; leaf S1 S2 HL HE.
    - apply andb_true_iff in F1, F2. unfold ln, show in HE; cbn [ec_card ec_indent] in HE; apply readable_inj in HE.
      apply char_inj in HE; [|tauto|tauto]. subst. auto.
    - apply uint_line in HE; [|eapply fits_u128; exact F1|eapply fits_u128; exact F2]. subst. auto.
    - unfold ln, show in HE; cbn [ec_card ec_indent] in HE; apply readable_inj, dec_inj in HE. subst. auto. }
  destruct (classify t) as [ |k| | |k| |it]; try discriminate V1; try exact (G _ E1 E2 V1 V2).
  injection V1 as <- _. injection V2 as <- _. leaf S1 S2 HL HE.
  unfold ln, show in HE; cbn [ec_card ec_indent] in HE; apply readable_inj, dec_inj in HE.
  apply everywhere_here in Hh. cbn [shown_in_full] in Hh.
  assert (n1 = n2) by lia. subst n2. split; [congruence|exact HL].
Qed.

Ltac start E1 E2 V1 V2 t Hl :=
  intros cpt elem h id v2 b1 b2 d1 d2 l1 l2 n db L1 L2 r1 r2 E1 E2 V1 V2 S1 S2 Hh HL;
  destruct (enc_lookup types _ _ _ _ E1) as (t & Hl); pose proof (enc_same_tag _ _ _ _ _ _ _ E1 E2) as Ht;
  destruct v2 as [n2|z2|c2|cs2|vs2|vs2|i2 vs2| |vs2|vs2|v2|n2 elems2|bs2|er2|i2 bs2|i2 j2 vs2];
  cbn [tagv] in Ht; try discriminate Ht; clear Ht.

Ltac simple_start E1 E2 V1 V2 t Hl :=
  start E1 E2 V1 V2 t Hl; cbn [Spec.enc Spec.view] in E1, E2, V1, V2; rewrite Hl in E1, E2, V1, V2.

Ltac payload_of H := unfold ln, show in H; cbn [ec_card ec_indent] in H; apply readable_inj in H.

Lemma see_int z : seen (VInt z).
Proof.
  simple_start E1 E2 V1 V2 t Hl. destruct (def_of t) as [[| | | | |x| |]|]; try discriminate V1.
  destruct x; try discriminate V1; injection V1 as <- _; injection V2 as <- _;
    apply guard_some in E1, E2; destruct E1 as [F1 <-], E2 as [F2 <-]; leaf S1 S2 HL HE;
    payload_of HE; apply z_inj in HE; subst; auto.
Qed.

Lemma see_bool b : seen (VBool b).
Proof.
  simple_start E1 E2 V1 V2 t Hl. destruct (def_of t) as [[| | | | |x| |]|]; try discriminate E1.
  destruct x; try discriminate E1; injection V1 as <- _; injection V2 as <- _.
  apply guard_some in E1, E2; destruct E1 as [F1 <-], E2 as [F2 <-]. leaf S1 S2 HL HE. payload_of HE.
  destruct b, c2; try discriminate HE; auto.
Qed.

Lemma see_str cs : seen (VStr cs).
Proof.
  simple_start E1 E2 V1 V2 t Hl. destruct (def_of t) as [[| | | | |x| |]|]; try discriminate E1.
  destruct x; try discriminate E1; injection V1 as <- _; injection V2 as <- _.
  apply guard_some in E1, E2; destruct E1 as [F1 <-], E2 as [F2 <-].
  rewrite !andb_true_iff in F1, F2. destruct F1 as [[_ F1] _], F2 as [[_ F2] _].
  assert (G : utf8s cs = utf8s cs2 /\ r1 = r2).
  { apply utf8s_is_bytes in F1, F2.
    destruct (str_label h); leaf S1 S2 HL HE; payload_of HE; apply string_of_bytes_inj in HE; auto. }
  destruct G as [-> ->]. auto.
Qed.

Lemma see_never : seen VNever.
Proof.
  start E1 E2 V1 V2 t Hl; cbn [Spec.enc Spec.view] in E1, E2, V1, V2; rewrite Hl in E1, E2, V1, V2;
    destruct (def_of t) as [[|[|? ?]| | | | | |]|]; try discriminate E1; try discriminate E2.
  injection V1 as <- _; injection V2 as <- _.
  apply guard_some in E1, E2; destruct E1 as [F1 <-], E2 as [F2 <-]. leaf S1 S2 HL HE. auto.
Qed.

Lemma see_bits n elems : seen (VBits n elems).
Proof.
  intros cpt elem h id v2 b1 b2 d1 d2 l1 l2 m db L1 L2 r1 r2 E1 E2 V1 V2 S1 S2 Hh HL.
  destruct (enc_lookup types _ _ _ _ E1) as (t & Hl); pose proof (enc_same_tag _ _ _ _ _ _ _ E1 E2) as Ht.
  destruct v2 as [| | | | | | | | | | |n2 elems2| | | |]; try discriminate Ht; clear Ht.
  cbn [Spec.enc Spec.view] in E1, E2, V1, V2; rewrite Hl in E1, E2, V1, V2.
  destruct (def_of t) as [[| | | | | | |store order]|]; try discriminate E1.
  destruct (bit_order_of types order) as [o|]; [|discriminate E1]. destruct (bit_store types store) as [w|]; [|discriminate E1].
  injection V1 as <- _; injection V2 as <- _.
  apply guard_some in E1, E2; destruct E1 as [F1 <-], E2 as [F2 <-].
  rewrite !andb_true_iff in F1, F2. destruct F1 as [[[_ _] X1] Y1], F2 as [[[_ _] X2] Y2]. apply N.eqb_eq in Y1, Y2.
  leaf S1 S2 HL HE. payload_of HE. apply Hbits in HE. apply everywhere_here in Hh. cbn [shown_in_full] in Hh.
  destruct (the_bits_inj w o n n2 elems elems2 X1 X2 Y1 Y2 Hh HE) as [-> ->]. auto.
Qed.

Lemma see_raw l : seen (VRaw l).
Proof.
  simple_start E1 E2 V1 V2 t Hl. destruct (classify t) as [|k| | |k| |it]; try discriminate V1;
    injection V1 as <- _; injection V2 as <- _; apply guard_some in E1, E2; destruct E1 as [F1 <-], E2 as [F2 <-];
    rewrite !andb_true_iff in F1, F2; destruct F1 as [[_ F1] G1], F2 as [[_ F2] G2]; apply Nat.eqb_eq in G1, G2;
    apply is_bytesb_spec in F1, F2; leaf S1 S2 HL HE.
  - apply fixed_line in HE; auto.
  - apply hash_line in HE; auto.
Qed.

Lemma see_era e : seen (VEra e).
Proof.
  simple_start E1 E2 V1 V2 t Hl. destruct (classify t) as [|k| | |k| |it]; try discriminate E1.
  injection V1 as <- _; injection V2 as <- _; apply guard_some in E1, E2; destruct E1 as [F1 <-], E2 as [F2 <-].
  leaf S1 S2 HL HE. apply era_line in HE. subst. auto.
Qed.

(** ** Containers *)

Lemma see_seq vs : Forall seen vs -> seen (VSeq vs).
Proof.
  intros IH. start E1 E2 V1 V2 t Hl.
  cbn [Spec.enc] in E1, E2. rewrite Hl in E1, E2.
  destruct (def_of t) as [[| |el| | | | |]|] eqn:Hd; try discriminate E1.
  rewrite (view_seq types _ _ _ _ _ _ Hl Hd) in V1; rewrite (view_seq types _ _ _ _ _ _ Hl Hd) in V2.
  destruct (negb cpt && _) in E1; [|discriminate E1]. destruct (negb cpt && _) in E2; [|discriminate E2].
  destruct (enc_all (enc false el) vs) as [B1|] eqn:F1; [|discriminate E1].
  destruct (enc_all (enc false el) vs2) as [B2|] eqn:F2; [|discriminate E2]. injection E1 as <-. injection E2 as <-.
  destruct (seq_see _ _ _ _ _ _ _ _ _ _ _ _ _ _ _ _ IH F1 F2 V1 V2 S1 S2 Hh HL) as (-> & -> & ->). auto.
Qed.

Lemma see_arr vs : Forall seen vs -> seen (VArr vs).
Proof.
  intros IH. start E1 E2 V1 V2 t Hl.
  cbn [Spec.enc] in E1, E2. rewrite Hl in E1, E2.
  destruct (def_of t) as [[| | |len el| | | |]|] eqn:Hd; try discriminate E1.
  rewrite (view_arr types _ _ _ _ _ _ _ Hl Hd) in V1; rewrite (view_arr types _ _ _ _ _ _ _ Hl Hd) in V2.
  destruct (negb cpt && _) in E1; [|discriminate E1]. destruct (negb cpt && _) in E2; [|discriminate E2].
  destruct (seq_see _ _ _ _ _ _ _ _ _ _ _ _ _ _ _ _ IH E1 E2 V1 V2 S1 S2 Hh HL) as (-> & _ & ->). auto.
Qed.

Lemma see_compact v : seen v -> seen (VCompact v).
Proof.
  intros IH. start E1 E2 V1 V2 t Hl.
  cbn [Spec.enc] in E1, E2. rewrite Hl in E1, E2.
  destruct (def_of t) as [[| | | | | |inner|]|] eqn:Hd; try discriminate E1.
  rewrite (view_compact types _ _ _ _ _ _ Hl Hd) in V1; rewrite (view_compact types _ _ _ _ _ _ Hl Hd) in V2. destruct cpt; [discriminate E1|].
  destruct (view (elem && is_some (transparent t)) h inner v) as [[e1 m1]|] eqn:W1; [|discriminate V1].
  destruct (view (elem && is_some (transparent t)) h inner v2) as [[e2 m2]|] eqn:W2; [|discriminate V2].
  injection V1 as <- _. injection V2 as <- _.
  exact (IH _ _ _ _ _ _ _ _ _ _ _ _ _ _ _ _ _ E1 E2 W1 W2 S1 S2 Hh HL).
Qed.

Lemma see_tuple vs : Forall seen vs -> seen (VTuple vs).
Proof.
  intros IH. start E1 E2 V1 V2 t Hl.
  cbn [Spec.enc] in E1, E2. rewrite Hl in E1, E2.
  destruct (def_of t) as [[| | | |ids| | |]|] eqn:Hd; try discriminate E1.
  rewrite (view_tuple types _ _ _ _ _ _ Hl Hd) in V1; rewrite (view_tuple types _ _ _ _ _ _ Hl Hd) in V2.
  destruct (cpt && _); [discriminate E1|].
  destruct (tuple_view types h ids vs) as [m1|] eqn:W1; [|discriminate V1].
  destruct (tuple_view types h ids vs2) as [m2|] eqn:W2; [|discriminate V2].
  injection V1 as <- _. injection V2 as <- _. apply everywhere_tuple in Hh. destruct Hh as [_ Hh].
  apply shown_leaf in S1; [|discriminate]; apply shown_leaf in S2; [|discriminate]. destruct S1 as [i1 ->], S2 as [i2 ->].
  unfold tuple_view in W1, W2.
  destruct ids as [|id1 ids].
  - destruct vs, vs2; try discriminate. cbn [view_list] in W1, W2. injection W1 as <-. injection W2 as <-.
    cbn [enc_list] in E1, E2. injection E1 as <-. injection E2 as <-. auto.
  - assert (N1 : m1 <> [] /\ m2 <> []).
    { destruct vs, vs2; try discriminate. cbn [view_list] in W1, W2. split; intros ->;
      repeat match goal with A : match ?x with _ => _ end = Some [] |- _ => destruct x; try discriminate A end. }
    destruct m1 as [|x1 m1]; [tauto|]. destruct m2 as [|x2 m2]; [tauto|].
    unfold lines in HL; cbn [Cards.card map List.app] in HL. apply cons_inv in HL. destruct HL as [_ HL].
    destruct (tuple_see _ _ _ _ _ _ _ _ _ _ _ _ _ _ IH E1 E2 W1 W2 Hh HL) as (-> & -> & _). auto.
Qed.

Lemma see_struct vs : Forall seen vs -> seen (VStruct vs).
Proof.
  intros IH. start E1 E2 V1 V2 t Hl.
  cbn [Spec.enc] in E1, E2. rewrite Hl in E1, E2.
  destruct (def_of t) as [[fs| | | | | | |]|] eqn:Hd; try discriminate E1.
  rewrite (view_struct types _ _ _ _ _ _ Hl Hd) in V1; rewrite (view_struct types _ _ _ _ _ _ Hl Hd) in V2.
  destruct (cpt && _); [discriminate E1|].
  assert (G : match fields_view types h fs vs with Some l => Some (DComposite l, own_info t) | None => None end = Some (d1, l1) ->
     match fields_view types h fs vs2 with Some l => Some (DComposite l, own_info t) | None => None end = Some (d2, l2) ->
     b1 = b2 /\ r1 = r2).
  { clear V1 V2. intros V1 V2. destruct (fields_view types h fs vs) as [m1|] eqn:W1; [|discriminate V1].
    destruct (fields_view types h fs vs2) as [m2|] eqn:W2; [|discriminate V2].
    injection V1 as <- _. injection V2 as <- _. apply everywhere_composite in Hh. destruct Hh as [_ Hh].
    apply shown_leaf in S1; [|discriminate]; apply shown_leaf in S2; [|discriminate]. destruct S1 as [i1 ->], S2 as [i2 ->].
    exact (composite_see _ _ _ _ _ _ _ _ _ _ _ _ _ _ _ IH E1 E2 W1 W2 Hh HL). }
  destruct elem; [|exact (G V1 V2)]. destruct (transparent t); [|exact (G V1 V2)].
  destruct fs as [|f [|g fs]]; try exact (G V1 V2).
  destruct vs as [|w1 [|w1' vs]]; [discriminate E1| |cbn [enc_list] in E1; destruct (enc cpt (f_ty f) w1); discriminate E1].
  destruct vs2 as [|w2 [|w2' vs2]]; [discriminate E2| |cbn [enc_list] in E2; destruct (enc cpt (f_ty f) w2); discriminate E2].
  cbn [enc_list] in E1, E2. destruct (enc cpt (f_ty f) w1) as [c1|] eqn:F1; [|discriminate E1].
  destruct (enc cpt (f_ty f) w2) as [c2|] eqn:F2; [|discriminate E2].
  injection E1 as <-. injection E2 as <-. rewrite !app_nil_r. inversion IH as [|? ? Hv _]; subst.
  exact (Hv _ _ _ _ _ _ _ _ _ _ _ _ _ _ _ _ _ F1 F2 V1 V2 S1 S2 Hh HL).
Qed.

(** ** Enums, signatures, calls and events *)

Definition item_card (t : ty) (name : string) : pcard :=
  match classify t with SpItem ItEvent => PcEventName name | _ => PcCallName name end.

Definition subvalues (v : value) : list value :=
  match v with VEnum _ vs | VItem _ _ vs => vs | _ => [] end.

Inductive enum_form (t : ty) (variants : list variant) (n : nat) (db : bool) (d : pdata) (vs : list value) (b : bytes)
  : list string -> Prop :=
| EF_enum i var B l : by_index variants i = Some var ->
    enc_list (fun f => enc false (f_ty f)) (v_fields var) vs = Some B -> fields_view types HNone (v_fields var) vs = Some l ->
    b = i :: B -> (nothing_hidden d -> Forall hidden_field l) ->
    enum_form t variants n db d vs b (ln n PcEnumAnnounced :: ln (n + 1) (PcEnumVariantName (v_name var))
      :: lines (card_variant_fields card l (n + 2) db))
| EF_sig i var k l : by_index variants i = Some var -> variant_sig types t var = Some k ->
    is_bytes l -> List.length l = raw_len k -> b = i :: l ->
    enum_form t variants n db d vs b [ln n (fixed_card base58 identicon specs k l)]
| EF_item i j var inner items item B l : by_index variants i = Some var ->
    pallet_items types t var = Some (inner, items) -> by_index items j = Some item ->
    enc_list (fun f => enc false (f_ty f)) (v_fields item) vs = Some B -> fields_view types HNone (v_fields item) vs = Some l ->
    b = i :: j :: B -> (nothing_hidden d -> Forall hidden_field l) ->
    enum_form t variants n db d vs b (ln n (PcPalletName (v_name var)) :: ln (n + 1) (item_card t (v_name item))
      :: lines (card_variant_fields card l (n + 2) (str_in (v_name var) PALLETS_BALANCE_VALID)))
| EF_never : variants = [] -> enum_form t variants n db d vs b [ln n PcEmptyEnum].

Lemma enum_form_of cpt elem h id t variants v b d l n db L : lookup id = Some t -> def_of t = Some (TVariant variants) ->
  enc cpt id v = Some b -> view elem h id v = Some (d, l) -> shown n db d L ->
  enum_form t variants n db d (subvalues v) b L.
Proof.
  intros Hl Hd E V S. destruct v; cbn [Spec.enc] in E; rewrite Hl, ?Hd in E; try discriminate E.
  - unfold def_of in Hd. destruct (classify t); try discriminate E; discriminate Hd.
  - destruct (by_index variants i) as [var|] eqn:Hi; [|discriminate E].
    rewrite (view_enum types _ _ _ _ _ _ _ _ Hl Hd Hi) in V.
    destruct (variant_sig types t var); [discriminate E|]. destruct (pallet_items types t var); [discriminate E|].
    destruct (negb cpt && _); [|discriminate E].
    destruct (enc_list _ (v_fields var) l0) as [B|] eqn:HB; [|discriminate E]. injection E as <-.
    destruct (fields_view types HNone (v_fields var) l0) as [fl|] eqn:Hf; [|discriminate V]. injection V as <- _.
    apply shown_leaf in S; [|discriminate]. destruct S as [inf ->].
    unfold lines. cbn [Cards.card map vd_name vd_docs vd_fields]. rewrite !ln_ok. eapply EF_enum; eauto.
    intros Hh. apply everywhere_variant in Hh. apply Hh.
  - destruct variants; [|discriminate E]. cbn [Spec.view] in V. rewrite Hl in V. injection V as <- _.
    apply shown_leaf in S; [|discriminate]. destruct S as [inf ->]. cbn [Cards.card lines map]. rewrite ln_ok.
    apply EF_never. reflexivity.
  - unfold def_of in Hd. destruct (classify t); try discriminate E; discriminate Hd.
  - unfold def_of in Hd. destruct (classify t); try discriminate E; discriminate Hd.
  - cbn [Spec.view] in V. rewrite Hl, Hd in V.
    destruct (by_index variants i) as [var|] eqn:Hi; [|discriminate E].
    destruct (variant_sig types t var) as [k|] eqn:Hk; [|discriminate E]. injection V as <- _.
    apply guard_some in E. destruct E as [E <-]. rewrite !andb_true_iff in E. destruct E as [[_ E1] E2].
    apply is_bytesb_spec in E1. apply Nat.eqb_eq in E2.
    apply shown_leaf in S; [|discriminate]. destruct S as [inf ->]. cbn [Cards.card lines map]. rewrite ln_ok.
    eapply EF_sig; eauto.
  - destruct (by_index variants i) as [var|] eqn:Hi; [|discriminate E].
    destruct (pallet_items types t var) as [[inner items]|] eqn:Hp; [|discriminate E].
    destruct (by_index items j) as [item|] eqn:Hj; [|discriminate E].
    rewrite (view_item types _ _ _ _ _ _ _ _ _ _ _ _ Hl Hd Hi Hp Hj) in V.
    destruct (negb cpt && _ && _); [|discriminate E].
    destruct (enc_list _ (v_fields item) l0) as [B|] eqn:HB; [|discriminate E]. injection E as <-.
    destruct (fields_view types HNone (v_fields item) l0) as [fl|] eqn:Hf; [|discriminate V].
    cbv zeta in V. injection V as <- _.
    assert (G : L = ln n (PcPalletName (v_name var)) :: ln (n + 1) (item_card t (v_name item))
      :: lines (card_variant_fields card fl (n + 2) (str_in (v_name var) PALLETS_BALANCE_VALID))).
    { unfold item_card. destruct (classify t) as [| | | | | |[] ]; (apply shown_leaf in S; [|discriminate]);
        destruct S as [inf ->]; unfold lines; cbn [Cards.card card_pallet_specific map]; rewrite !ln_ok; reflexivity. }
    rewrite G. eapply EF_item; eauto.
    intros Hh. destruct (classify t) as [| | | | | |[] ]; first [apply everywhere_call in Hh|apply everywhere_event in Hh]; apply Hh.
Qed.

Lemma sig_kind_of t var k : variant_sig types t var = Some k -> k = KSigEcdsa \/ k = KSigEd25519 \/ k = KSigSr25519.
Proof.
  unfold variant_sig. destruct (classify t); try discriminate. destruct (v_fields var) as [|f [|? ?]]; try discriminate.
  apply bare_signature_kinds.
Qed.

Lemma enum_forms id t variants n db d1 d2 vs1 vs2 b1 b2 L1 L2 r1 r2 :
  lookup id = Some t -> def_of t = Some (TVariant variants) -> Forall seen vs1 ->
  enum_form t variants n db d1 vs1 b1 L1 -> enum_form t variants n db d2 vs2 b2 L2 -> nothing_hidden d1 ->
  variants <> [] -> L1 ++ r1 = L2 ++ r2 -> b1 = b2 /\ r1 = r2.
Proof.
  intros Hl Hd IH F1 F2 Hh Hne HL. apply def_of_def in Hd.
  assert (sigs : forall m k l, k = KSigEcdsa \/ k = KSigEd25519 \/ k = KSigSr25519 -> 
            ln m PcEnumAnnounced <> ln m (fixed_card base58 identicon specs k l)).
  { intros m k l Hk H. unfold ln, show, readable in H. cbn [ec_card ec_indent] in H.
    destruct Hk as [-> | [-> | ->] ]; apply str_cancel_left in H; discriminate H. }
  assert (pals : forall m s, ln m PcEnumAnnounced <> ln m (PcPalletName s)).
  { intros m s H. unfold ln, show, readable in H. cbn [ec_card ec_indent] in H. apply str_cancel_left in H. discriminate H. }
  assert (sigp : forall m k l s, k = KSigEcdsa \/ k = KSigEd25519 \/ k = KSigSr25519 -> 
            ln m (PcPalletName s) <> ln m (fixed_card base58 identicon specs k l)).
  { intros m k l s Hk. unfold ln, show. cbn [ec_card ec_indent].
    destruct Hk as [-> | [-> | ->] ]; apply readable_ne; reflexivity. }
  destruct F1 as [i1 var1 B1 m1 Hi1 HB1 HV1 -> HF1|i1 var1 k1 l1 Hi1 Hk1 Hb1 Hn1 ->
                 |i1 j1 var1 inner1 items1 item1 B1 m1 Hi1 Hp1 Hj1 HB1 HV1 -> HF1|H1]; [| | |contradiction];
  destruct F2 as [i2 var2 B2 m2 Hi2 HB2 HV2 -> HF2|i2 var2 k2 l2 Hi2 Hk2 Hb2 Hn2 ->
                 |i2 j2 var2 inner2 items2 item2 B2 m2 Hi2 Hp2 Hj2 HB2 HV2 -> HF2|H2]; try contradiction;
  cbn [List.app] in HL; apply cons_inv in HL; destruct HL as [HE HL];
  try (pose proof (sig_kind_of _ _ _ Hk1) as K1); try (pose proof (sig_kind_of _ _ _ Hk2) as K2);
  try (exfalso; solve [exact (sigs _ _ _ K2 HE)|exact (pals _ _ HE)|symmetry in HE; exact (sigs _ _ _ K1 HE)
                |symmetry in HE; exact (pals _ _ HE)|exact (sigp _ _ _ _ K2 HE)|symmetry in HE; exact (sigp _ _ _ _ K1 HE)]).
  - apply cons_inv in HL. destruct HL as [HN HL]. payload_of HN.
    pose proof (same_name _ _ _ _ _ _ _ Hl Hd Hi1 Hi2 HN) as Hi. subst i2. rewrite Hi1 in Hi2. injection Hi2 as <-.
    destruct (variant_fields_see _ _ _ _ _ _ _ _ _ _ _ _ _ IH HB1 HB2 HV1 HV2 (HF1 Hh) HL) as [-> ->]. auto.
  - assert (Hk : k1 = k2).
    { revert HE. unfold ln, show. cbn [ec_card ec_indent].
      destruct K1 as [-> | [-> | ->] ], K2 as [-> | [-> | ->] ]; intros HE; try reflexivity; exfalso;
      revert HE; apply readable_ne; reflexivity. }
    subst k2. apply fixed_line in HE; try assumption. subst l2.
    rewrite (same_sig _ _ _ _ _ _ _ _ Hl Hd Hi1 Hi2 Hk1 Hk2). auto.
  - payload_of HE. pose proof (same_name _ _ _ _ _ _ _ Hl Hd Hi1 Hi2 HE) as Hi. subst i2.
    rewrite Hi1 in Hi2. injection Hi2 as <-. rewrite Hp1 in Hp2. injection Hp2 as <- <-.
    apply cons_inv in HL. destruct HL as [HN HL].
    assert (HN' : v_name item1 = v_name item2).
    { unfold item_card in HN. destruct (classify t) as [| | | | | |[] ]; payload_of HN; exact HN. }
    destruct (pallet_inner _ _ _ _ Hp1) as (id' & Hl' & Hd').
    pose proof (same_name _ _ _ _ _ _ _ Hl' Hd' Hj1 Hj2 HN') as Hj. subst j2. rewrite Hj1 in Hj2. injection Hj2 as <-.
    destruct (variant_fields_see _ _ _ _ _ _ _ _ _ _ _ _ _ IH HB1 HB2 HV1 HV2 (HF1 Hh) HL) as [-> ->]. auto.
Qed.

Lemma see_group v : Forall seen (subvalues v) -> tagv v = 6%nat -> v <> VNever -> seen v.
Proof.
  intros IH Ht Hn cpt elem h id v2 b1 b2 d1 d2 l1 l2 n db L1 L2 r1 r2 E1 E2 V1 V2 S1 S2 Hh HL.
  destruct (enc_lookup types _ _ _ _ E1) as (t & Hl).
  assert (Hd : exists variants, def_of t = Some (TVariant variants) /\ variants <> []).
  { pose proof E1 as E. destruct v; try discriminate Ht; [|destruct (Hn eq_refl)| |]; cbn [Spec.enc] in E; rewrite Hl in E;
      (destruct (def_of t) as [[|variants| | | | | |]|]; try discriminate E); exists variants; (split; [reflexivity|]);
      intros ->; discriminate E. }
  destruct Hd as (variants & Hd & Hne).
  exact (enum_forms id t variants n db d1 d2 _ _ b1 b2 L1 L2 r1 r2 Hl Hd IH
    (enum_form_of _ _ _ _ _ _ _ _ _ _ _ _ _ Hl Hd E1 V1 S1) (enum_form_of _ _ _ _ _ _ _ _ _ _ _ _ _ Hl Hd E2 V2 S2) Hh Hne HL).
Qed.

Theorem see_all v : seen v.
Proof.
  induction v as [n|z|b|cs|vs IH|vs IH|i vs IH| |vs IH|vs IH|v IH|n elems|bs'|er|i bs'|i j vs IH] using value_ind'.
  - apply see_num.
  - apply see_int.
  - apply see_bool.
  - apply see_str.
  - apply see_struct, IH.
  - apply see_tuple, IH.
  - apply see_group; [exact IH|reflexivity|discriminate].
  - apply see_never.
  - apply see_seq, IH.
  - apply see_arr, IH.
  - apply see_compact, IH.
  - apply see_bits.
  - apply see_raw.
  - apply see_era.
  - apply see_group; [constructor|reflexivity|discriminate].
  - apply see_group; [exact IH|reflexivity|discriminate].
Qed.
End See.
