(** Particular kinds of types, continued: C16 (refusal), C17-C20. *)
From Coq Require Import Lia ZifyBool ZifyNat ZifyN.
From Verif Require Import Base Compact Types Indicators Decode Spec SpecKinds Api ProofBase ProofCompact ProofUtf8 ProofLeaf ProofRead
  ProofTables ProofPeel ProofSpec ProofRel ProofMain SpecSource ProofCor ProofKinds.
Local Open Scope string_scope.
Local Open Scope list_scope.

(** *** Numbers from bits *)

Lemma number_testbit l : forall j, N.testbit (number l) (N.of_nat j) = nth j l false.
Proof.
  induction l as [|b l IH]; intros j; [destruct j; reflexivity|].
  cbn [number]. destruct j as [|j].
  - cbn [nth]. change (N.of_nat 0) with 0%N. rewrite N.add_comm.
    destruct b; [apply N.testbit_odd_0|rewrite N.add_0_r; apply N.testbit_even_0].
  - cbn [nth]. rewrite Nat2N.inj_succ, N.add_comm. rewrite <- IH.
    destruct b; [apply N.testbit_odd_succ; lia|rewrite N.add_0_r; apply N.testbit_even_succ; lia].
Qed.

Lemma number_bound l : (number l < 2 ^ N.of_nat (List.length l))%N.
Proof.
  induction l as [|b l IH]; [reflexivity|]. cbn [number List.length].
  rewrite Nat2N.inj_succ, N.pow_succ_r'. destruct b; lia.
Qed.

Lemma pack_length w o bits : List.length (pack w o bits) = ((List.length bits + 8 * usize w - 1) / (8 * usize w))%nat.
Proof. unfold pack. rewrite map_length, seq_length. reflexivity. Qed.

Lemma pack_fits w o bits : forallb (fits w) (pack w o bits) = true.
Proof.
  apply forallb_forall. intros x Hx. unfold pack in Hx. apply in_map_iff in Hx. destruct Hx as (i & <- & _).
  unfold fits. apply N.ltb_lt. eapply N.lt_le_trans; [apply number_bound|].
  rewrite map_length, seq_length. apply N.pow_le_mono_r; lia.
Qed.

Lemma nth_map_seq {B} (f : nat -> B) d n i : (i < n)%nat -> nth i (map f (seq 0 n)) d = f i.
Proof.
  intros H. rewrite (nth_indep _ d (f 0%nat)) by (rewrite map_length, seq_length; exact H).
  rewrite map_nth, seq_nth by exact H. reflexivity.
Qed.

Lemma pack_bits w o bits : the_bits w o (N.of_nat (List.length bits)) (pack w o bits) = bits.
Proof.
  unfold the_bits. rewrite Nat2N.id. apply nth_ext with (d := false) (d' := false).
  - rewrite map_length, seq_length. reflexivity.
  - rewrite map_length, seq_length. intros i Hi. rewrite nth_map_seq by exact Hi.
    assert (Hw : (0 < 8 * usize w)%nat) by (destruct w; cbn; lia).
    unfold nth_bit. remember (8 * usize w)%nat as k eqn:Hk. unfold pack. rewrite <- Hk.
    pose proof (Nat.div_mod i k ltac:(lia)) as Hdm. pose proof (Nat.mod_upper_bound i k ltac:(lia)) as Hm.
    rewrite nth_map_seq.
    + rewrite number_testbit. destruct o.
      * rewrite nth_map_seq by lia. f_equal. lia.
      * rewrite nth_map_seq by lia. f_equal. lia.
    + apply Nat.div_lt_upper_bound; [lia|].
      pose proof (Nat.div_mod (List.length bits + k - 1) k ltac:(lia)).
      pose proof (Nat.mod_upper_bound (List.length bits + k - 1) k ltac:(lia)). lia.
Qed.

(** *** Collecting *)

Lemma collect_collected ds s : collect ds = Some s -> collected s ds.
Proof.
  unfold collect. destruct ds as [|d0 ds0]; [discriminate|].
  assert (Hu : forall w l ds, map_opt (uint_item w) ds = Some l -> ds = map (fun n => DUInt w n SuNone) l).
  { intros w l ds. revert l. induction ds as [|d ds IH]; intros l; cbn [map_opt]; [intros H; injection H as <-; reflexivity|].
    destruct (uint_item w d) as [n|] eqn:Hd; [|discriminate]. destruct (map_opt (uint_item w) ds) as [r|] eqn:Hr; [|discriminate].
    intros H; injection H as <-. cbn [map]. rewrite (IH _ eq_refl). f_equal.
    destruct d; try discriminate. destruct specialty; try discriminate. cbn [uint_item] in Hd.
    destruct (width_eqb w w0) eqn:Hw; [|discriminate]. apply width_eqb_spec in Hw. congruence. }
  assert (Hv : forall inf l ds, map_opt (bytes_item inf) ds = Some l -> collected (SeqVecU8 l inf) ds).
  { intros inf l ds. revert l. induction ds as [|d ds IH]; intros l; cbn [map_opt]; [intros H; injection H as <-; constructor|].
    destruct (bytes_item inf d) as [n|] eqn:Hd; [|discriminate].
    destruct (map_opt (bytes_item inf) ds) as [r|] eqn:Hr; [|discriminate].
    intros H; injection H as <-. constructor; [|apply IH; reflexivity].
    destruct d; try discriminate; cbn [bytes_item] in Hd.
    - destruct s0 as [[]|]; try discriminate. destruct (infos_eqb inf element_info) eqn:Hi; [|discriminate].
      apply infos_eqb_eq in Hi. left. congruence.
    - destruct l; [|discriminate]. right. split; [congruence|eauto]. }
  destruct d0; try discriminate.
  - intros H. destruct (map_opt _ _) as [l|] eqn:Hm in H; [|discriminate].
    injection H as <-. cbn [collected]. apply Hu. exact Hm.
  - destruct s0 as [[]|]; try discriminate. intros H. destruct (map_opt _ _) as [l0|] eqn:Hm in H; [|discriminate].
    injection H as <-. apply Hv. exact Hm.
Qed.

Lemma sequence_of_faithful inf ds :
  sequence_of inf ds = DSequenceRaw inf ds \/ exists s, sequence_of inf ds = DSequence inf s /\ collected s ds.
Proof.
  unfold sequence_of. destruct (collect ds) as [s|] eqn:Hc; [right|left; reflexivity].
  exists s. split; [reflexivity|apply collect_collected, Hc].
Qed.

Lemma wrap_faithful ds s : wrap_sequence ds = Some s -> collected s ds.
Proof. rewrite wrap_sequence_collect. apply collect_collected. Qed.

(** *** Eras *)

Definition opt_bytes_eqb (a : option bytes) (b : bytes) : bool :=
  match a with
  | Some [x; y] => match b with [x'; y'] => (x =? x')%N && (y =? y')%N | _ => false end
  | _ => false
  end.

Definition era_encode_check (k j : N) : bool :=
  let p := (2 ^ k)%N in
  let ph := (j * quantum p)%N in
  if era_valid (Mortal p ph) then opt_bytes_eqb (era_encode (Mortal p ph)) (era_enc (Mortal p ph)) else true.

Lemma era_encode_check_all :
  forallb (fun k => forallb (era_encode_check k) (upto 4096)) (upto 17) = true.
Proof. vm_compute. reflexivity. Qed.

Lemma era_valid_grid p ph : era_valid (Mortal p ph) = true ->
  exists k j, (k < 17)%N /\ (j < 4096)%N /\ p = (2 ^ k)%N /\ ph = (j * quantum p)%N.
Proof.
  intros Hv. pose proof Hv as Hv'. unfold era_valid in Hv'.
  assert (Hp : (p = 2 ^ N.log2 p)%N) by lia.
  assert (Hk : (N.log2 p < 17)%N).
  { apply N.log2_lt_pow2; [lia|]. change (2 ^ 17)%N with 131072%N. lia. }
  assert (Hph : (ph = ph / quantum p * quantum p)%N).
  { assert (Hq : quantum p <> 0%N) by (unfold quantum; lia).
    pose proof (N.div_mod ph (quantum p) Hq). lia. }
  exists (N.log2 p), (ph / quantum p)%N. repeat split; auto.
  unfold quantum in *. clear Hv Hp Hk Hph.
  apply N.div_lt_upper_bound; [lia|].
  destruct (N.max_spec (p / 4096) 1) as [[Hm ->]|[Hm ->]]; [lia|].
  destruct (N.le_gt_cases p 65536) as [H65|H65]; [|lia].
  assert (Hpw : (p = 2 ^ N.log2 p)%N) by lia.
  assert (Hl : (N.log2 p <= 16)%N).
  { apply N.log2_le_mono in H65. exact H65. }
  assert (Hl2 : (12 <= N.log2 p)%N).
  { assert (4096 <= p)%N by lia. apply N.log2_le_pow2; lia. }
  assert (N.log2 p = 12 \/ N.log2 p = 13 \/ N.log2 p = 14 \/ N.log2 p = 15 \/ N.log2 p = 16)%N as Hc by lia.
  destruct Hc as [Hc|[Hc|[Hc|[Hc|Hc]]]]; rewrite Hc in Hpw; cbn in Hpw; subst p; cbn in *; lia.
Qed.

Theorem era_encode_spec e : era_valid e = true -> era_encode e = Some (era_enc e).
Proof.
  destruct e as [|p ph]; [reflexivity|]. intros Hv.
  destruct (era_valid_grid _ _ Hv) as (k & j & Hk & Hj & Hp & Hph).
  pose proof era_encode_check_all as Ha. rewrite forallb_forall in Ha.
  specialize (Ha _ (in_upto _ _ Hk)). rewrite forallb_forall in Ha.
  specialize (Ha _ (in_upto _ _ Hj)). unfold era_encode_check in Ha.
  rewrite <- Hp in Ha. cbv zeta in Ha. rewrite <- Hph, Hv in Ha.
  unfold opt_bytes_eqb in Ha. destruct (era_encode (Mortal p ph)) as [[|x [|y [|]]]|]; try discriminate.
  destruct (era_enc (Mortal p ph)) as [|x' [|y' [|]]]; try discriminate.
  assert (x = x' /\ y = y') as [-> ->] by lia. reflexivity.
Qed.

Theorem era_decode_spec l e : is_bytes l ->
  (era_decode_all l = Some e <-> era_valid e = true /\ l = era_enc e).
Proof.
  intros Hb. split.
  - destruct l as [|b0 r]; [discriminate|]. cbn [era_decode_all]. inversion Hb as [|? ? Hb0 Hbr]; subst.
    destruct (N.eqb_spec b0 0) as [->|Hn].
    + destruct r; [|discriminate]. intros H; injection H as <-. split; reflexivity.
    + destruct r as [|b1 [|]]; try discriminate. intros H. inversion Hbr as [|? ? Hb1 _]; subst.
      destruct (era_of_encoded_spec b0 b1 e Hb0 Hb1 Hn H) as (_ & Hv & ->). auto.
  - intros [Hv ->]. destruct (era_enc_shape e Hv) as [[-> ->]|(b0 & b1 & -> & Hn & H0 & H1 & Hd)]; [reflexivity|].
    cbn [era_decode_all]. destruct (N.eqb_spec b0 0) as [->|_]; [contradiction|exact Hd].
Qed.

Section Kinds2.
Variable types : list ty.
Local Notation enc := (enc types).
Local Notation view := (view types).
Local Notation lookup := (lookup types).

(** One level of decoding a type that is decoded by definition. *)
Lemma plain_step data id pos t : lookup id = Some t ->
  checked_of types t (nth_error data pos) = (CNone, 0%nat) ->
  exists fuel, decode_at types data id pos =
    let '(o, q, _) := decode_plain (@slice_buffer unit data) (portable types)
        (decode (slice_buffer data) (portable types) fuel) t id
        (add_info propagated_new (info_from_ty t)) pos tt in (o, q).
Proof.
  intros Hl Hc. pose proof (hinted_returns types HNone data id pos) as Hr. revert Hr.
  rewrite <- decode_at_hinted. unfold decode_at, decode_as_type_at_position, decode_with_type, decode_fuel.
  set (fuel := (S (total_len (@slice_buffer unit data)) * (reg_bound (@portable unit types) + 3))%nat). cbn [decode].
  exists fuel. revert Hr.
  pose proof (checked_from_type_okf types (E := unit) data t pos tt) as Hk. rewrite Hc in Hk. cbn [fst snd] in Hk.
  rewrite Nat.add_0_r in Hk.
  assert (Hin : (do t <- map_err PRegistry (resolve_ty (portable types) id); ret (t, id)) pos tt = (@Ok parser_err _ (t, id), pos, tt)).
  { unfold bind, map_err. pose proof (resolve_total types (E := unit) id pos tt) as H. rewrite Hl in H. rewrite H. reflexivity. }
  unfold decode_body. unfold bind at 1. rewrite Hin. unfold bind at 1.
  destruct Hk as [Hk|(x & y & Hk)]; rewrite Hk; cbn [decode_checked].
  - intros _. unfold bind at 1. rewrite Hin. unfold bind at 1. rewrite Hk. reflexivity.
  - cbn [fst]. intros [(a & Ha)|(a & Ha)]; discriminate.
Qed.

Lemma reject_none (c : checker) p (e : unit) : compact_at c = None ->
  @reject_compact_m unit c p e = (Ok tt, p, e).
Proof. intros H. unfold reject_compact_m, map_err, reject_compact, lift. rewrite H. reflexivity. Qed.

Lemma new_compact t : compact_at (checker_of (add_info propagated_new (info_from_ty t))) = None.
Proof. unfold add_info. destruct (info_is_empty _); reflexivity. Qed.

(** *** C16, refusal *)

Theorem enum_unknown data id pos t variants b :
  lookup id = Some t -> def_of t = Some (TVariant variants) -> variants <> [] ->
  nth_error data pos = Some b -> none_with variants b ->
  decode_at types data id pos = (Err (UnexpectedEnumVariant pos), pos).
Proof.
  intros Hl Hd Hne Hn Hnone. apply by_index_none in Hnone.
  destruct (def_of_cases _ _ Hd) as [Ht Hc]. symmetry in Ht.
  assert (Hk : checked_of types t (nth_error data pos) = (CNone, 0%nat)).
  { unfold checked_of. rewrite Ht, Hn, Hnone. destruct Hc as [-> | [-> | (it & ->)] ]; reflexivity. }
  destruct (plain_step data id pos t Hl Hk) as (fuel & ->).
  unfold decode_plain. rewrite Ht. unfold bind at 1. rewrite (reject_none _ _ _ (new_compact t)).
  destruct variants as [|v0 vs0]; [destruct (Hne eq_refl)|].
  unfold decode_variant. unfold bind at 1. unfold bind at 1. cbn [get_pos]. unfold bind at 1.
  unfold pick_variant. unfold bind at 1.
  assert (Hr2 : read_byte (slice_buffer data) pos pos tt = (Ok b, pos, tt))
    by (apply read_byte_ok; auto). rewrite Hr2.
  unfold by_index in Hnone. unfold find_variant. rewrite Hnone. reflexivity.
Qed.

(** *** C17 *)

Theorem text_iff data id pos t x q : is_bytes data ->
  lookup id = Some t -> def_of t = Some (TPrimitive PrStr) ->
  (decode_at types data id pos = (Ok x, q) <->
   exists l cs, forallb scalar cs = true /\ l = utf8s cs /\ (N.of_nat (List.length l) < 2 ^ 32)%N /\
     slice data pos (q - pos) = compact_enc (N.of_nat (List.length l)) ++ l /\
     q = (pos + List.length (compact_enc (N.of_nat (List.length l)) ++ l))%nat /\
     x = Ext (DText l SsNone) (own_info t)).
Proof.
  intros Hb Hl Hd. rewrite decode_at_hinted, hinted_iff by exact Hb. unfold reads. split.
  - intros (v & bs & He & Hv & _ & Hh & Hq).
    destruct v; cbn [Spec.enc] in He; rewrite Hl in He; rewrite ?Hd in He; try discriminate;
      try (unfold def_of in Hd; destruct (classify t); discriminate).
    cbv zeta in He. apply guard_ok in He. destruct He as [Hg ->].
    apply andb_true_iff in Hg. destruct Hg as [Hg Hf]. apply andb_true_iff in Hg. destruct Hg as [_ Hs].
    cbn [Spec.view] in Hv. rewrite Hl in Hv. injection Hv as Hx Hi.
    exists (utf8s l), l. unfold fits in Hf. apply N.ltb_lt in Hf.
    repeat split; auto.
    + rewrite Hq. replace (pos + _ - pos)%nat with (List.length (compact_enc (N.of_nat (List.length (utf8s l))) ++ utf8s l)) by lia.
      exact Hh.
    + destruct x as [xd xi]. cbn [x_data x_info] in *. subst. reflexivity.
  - intros (l & cs & Hs & -> & Hlen & Hsl & Hq & ->).
    exists (VStr cs). eexists. cbn [Spec.enc Spec.view ProofPeel.nocyc]. rewrite Hl, Hd. cbv zeta.
    assert (Hf : fits U32 (N.of_nat (List.length (utf8s cs))) = true) by (apply N.ltb_lt; exact Hlen).
    rewrite Hs, Hf. cbn [negb andb guard]. repeat split; [|exact Hq].
    unfold has. rewrite Hq in Hsl.
    replace (pos + _ - pos)%nat with (List.length (compact_enc (N.of_nat (List.length (utf8s cs))) ++ utf8s cs)) in Hsl by lia.
    exact Hsl.
Qed.

Theorem text_refused data id pos t l : is_bytes data ->
  lookup id = Some t -> def_of t = Some (TPrimitive PrStr) ->
  (N.of_nat (List.length l) < 2 ^ 32)%N ->
  slice data pos (List.length (compact_enc (N.of_nat (List.length l)) ++ l)) = compact_enc (N.of_nat (List.length l)) ++ l ->
  (forall cs, forallb scalar cs = true -> l <> utf8s cs) ->
  decode_at types data id pos = (Err (TypeFailure pos "str"), pos).
Proof.
  intros Hb Hl Hd Hlen Hh Hno. destruct (def_of_cases _ _ Hd) as [Ht Hc]. symmetry in Ht.
  assert (Hk : checked_of types t (nth_error data pos) = (CNone, 0%nat)).
  { unfold checked_of. rewrite Ht. destruct Hc as [-> | [-> | (it & ->)] ]; reflexivity. }
  destruct (plain_step data id pos t Hl Hk) as (fuel & ->).
  unfold decode_plain. rewrite Ht. cbn [decode_primitive]. unfold bind at 1. unfold bind at 1.
  rewrite (reject_none _ _ _ (new_compact t)). unfold decode_str.
  change (has data pos (compact_enc (N.of_nat (List.length l)) ++ l)) in Hh.
  apply has_app in Hh. destruct Hh as [H1 H2]. remember (N.of_nat (List.length l)) as n eqn:Hn.
  assert (Hle : (pos + List.length (compact_enc n) <= List.length data)%nat).
  { destruct (has_len _ _ _ H1) as [He|Hl2]; auto. exfalso. apply (compact_enc_nonempty n He). }
  pose proof (has_le _ _ _ H2 Hle) as Hle2.
  assert (Hf : fits U32 n = true) by (apply N.ltb_lt; exact Hlen).
  unfold bind at 1. cbn [get_pos]. unfold bind at 1.
  rewrite (proj2 (find_compact_ok data Hb U32 pos pos tt n _ pos tt)) by (repeat split; eauto).
  unfold bind at 1. rewrite read_slice_do by lia.
  replace (N.to_nat n) with (List.length l) by lia. unfold has in H2. rewrite H2.
  destruct (utf8_valid l) eqn:Hu; [|reflexivity].
  apply utf8_valid_spec in Hu. destruct Hu as (cs & Hcs & Hl2). destruct (Hno cs Hcs Hl2).
Qed.

(** *** C18 *)

Theorem bits_exact id t store order w o bits pre post :
  lookup id = Some t -> def_of t = Some (TBitSequence store order) ->
  bit_store types store = Some w -> bit_order_of types order = Some o ->
  (N.of_nat (List.length bits) <= 2 ^ 29 - 1)%N -> is_bytes (pre ++ post) ->
  decode_at types (pre ++ bits_enc w o bits ++ post) id (List.length pre) =
    (Ok (Ext (DBitVec w o bits) (own_info t)), (List.length pre + List.length (bits_enc w o bits))%nat).
Proof.
  intros Hl Hd Hs Ho Hn Hb.
  assert (He : enc false id (VBits (N.of_nat (List.length bits)) (pack w o bits)) = Some (bits_enc w o bits)).
  { cbn [Spec.enc]. rewrite Hl, Hd, Ho, Hs. cbv zeta. unfold bits_enc.
    rewrite pack_fits, pack_length. cbn [negb andb].
    replace (N.of_nat (List.length bits) <=? max_bits)%N with true by (symmetry; apply N.leb_le; exact Hn).
    assert (Hw : (0 < 8 * usize w)%nat) by (destruct w; cbn; lia).
    replace (N.of_nat ((List.length bits + 8 * usize w - 1) / (8 * usize w)) =?
             (N.of_nat (List.length bits) + 8 * N.of_nat (usize w) - 1) / (8 * N.of_nat (usize w)))%N with true; [reflexivity|].
    symmetry. apply N.eqb_eq. rewrite Nat2N.inj_div. f_equal; lia. }
  assert (Hbb : is_bytes (bits_enc w o bits)).
  { unfold bits_enc. apply is_bytes_app. split.
    - apply (compact_enc_fits_is_bytes U32). apply max_bits_fits. exact Hn.
    - clear. induction (pack w o bits) as [|x l IH]; [constructor|]. cbn [flat_map].
      apply is_bytes_app. split; [apply le_bytes_is_bytes|exact IH]. }
  rewrite decode_at_hinted. apply hinted_complete.
  - apply is_bytes_app in Hb. destruct Hb. apply is_bytes_app. split; [assumption|].
    apply is_bytes_app. split; assumption.
  - exists (VBits (N.of_nat (List.length bits)) (pack w o bits)), (bits_enc w o bits).
    split; [exact He|]. split; [|split; [|split; [apply has_mid|reflexivity] ] ].
    + cbn [Spec.view x_data x_info]. rewrite Hl, Hd, Ho, Hs, pack_bits. reflexivity.
    + cbn [ProofPeel.nocyc]. rewrite Hl. reflexivity.
Qed.

Theorem bits_too_long data id pos t store order n : is_bytes data ->
  lookup id = Some t -> def_of t = Some (TBitSequence store order) ->
  (2 ^ 29 - 1 < n < 2 ^ 32)%N ->
  slice data pos (List.length (compact_enc n)) = compact_enc n ->
  exists y q, decode_at types data id pos = (Err y, q).
Proof.
  intros Hb Hl Hd Hn Hh. rewrite decode_at_hinted. apply hinted_not_ok. intros x q H.
  apply hinted_sound in H; [|exact Hb]. destruct H as (v & bs & He & _ & _ & Hh2 & _).
  destruct v; cbn [Spec.enc] in He; rewrite Hl in He; rewrite ?Hd in He; try discriminate;
      try (unfold def_of in Hd; destruct (classify t); discriminate).
  destruct (bit_order_of types order); [|discriminate]. destruct (bit_store types store) as [w|]; [|discriminate].
  cbv zeta in He. apply guard_ok in He. destruct He as [Hg ->].
  assert (Hm : (n0 <= max_bits)%N) by lia.
  apply has_app in Hh2. destruct Hh2 as [Hh2 _].
  assert (Hfn : fits U32 n = true) by (apply N.ltb_lt; exact (proj2 Hn)).
  pose proof (max_bits_fits _ Hm) as Hf0. change (has data pos (compact_enc n)) in Hh.
  assert (n = n0); [|unfold max_bits in Hm; subst; lia].
  unfold has, slice in Hh, Hh2.
  pose proof (firstn_skipn (List.length (compact_enc n)) (skipn pos data)) as H1. rewrite Hh in H1.
  pose proof (firstn_skipn (List.length (compact_enc n0)) (skipn pos data)) as H2. rewrite Hh2 in H2.
  pose proof (compact_decode_enc U32 n (skipn (List.length (compact_enc n)) (skipn pos data)) Hfn) as D1.
  pose proof (compact_decode_enc U32 n0 (skipn (List.length (compact_enc n0)) (skipn pos data)) Hf0) as D2.
  rewrite H1 in D1. rewrite H2 in D2. congruence.
Qed.

(** *** C19 *)

Theorem era_in_place data id pos t x q : is_bytes data ->
  lookup id = Some t -> classify t = SpEra ->
  (decode_at types data id pos = (Ok x, q) <->
   exists e, era_valid e = true /\ slice data pos (List.length (era_enc e)) = era_enc e /\
     q = (pos + List.length (era_enc e))%nat /\ x = Ext (DEra e) (own_info t)).
Proof.
  intros Hb Hl Hc. assert (Hd : def_of t = None) by (unfold def_of; rewrite Hc; reflexivity).
  rewrite decode_at_hinted, hinted_iff by exact Hb. unfold reads. split.
  - intros (v & bs & He & Hv & _ & Hh & Hq).
    destruct v; cbn [Spec.enc] in He; rewrite Hl in He; rewrite ?Hd, ?Hc in He; try discriminate.
    apply guard_ok in He. destruct He as [Hg ->]. cbn [negb andb] in Hg.
    cbn [Spec.view] in Hv. rewrite Hl in Hv. injection Hv as Hx Hi.
    exists e. repeat split; auto. destruct x as [xd xi]. cbn [x_data x_info] in *. subst. reflexivity.
  - intros (e & Hv & Hs & Hq & ->). exists (VEra e), (era_enc e).
    cbn [Spec.enc Spec.view ProofPeel.nocyc]. rewrite Hl, Hc, Hv. repeat split; auto.
Qed.

(** *** C20 *)

Lemma elems_view_forall el vs ds : elems_view types el vs = Some ds ->
  Forall2 (fun v d => exists l, view true HNone el v = Some (d, l)) vs ds.
Proof.
  revert ds. induction vs as [|v vs IH]; intros ds; cbn [elems_view]; [intros H; injection H as <-; constructor|].
  destruct (Spec.view types true HNone el v) as [[d l]|] eqn:Hv; [|discriminate].
  fold (elems_view types el). destruct (elems_view types el vs) as [r|] eqn:Hr; [|discriminate].
  intros H; injection H as <-. constructor; [eauto|apply IH; reflexivity].
Qed.

Theorem sequence_faithful data id pos t el x q : is_bytes data ->
  lookup id = Some t -> (def_of t = Some (TSequence el) \/ exists n, def_of t = Some (TArray n el)) ->
  decode_at types data id pos = (Ok x, q) ->
  exists vs ds inf,
    (enc false id (VSeq vs) = Some (slice data pos (q - pos)) \/
     enc false id (VArr vs) = Some (slice data pos (q - pos))) /\
    Forall2 (fun v d => exists l, view true HNone el v = Some (d, l)) vs ds /\
    (x_data x = DSequenceRaw inf ds \/ exists s, x_data x = DSequence inf s /\ collected s ds).
Proof.
  intros Hb Hl Hd H. destruct (only_what_is_there types data id pos x q Hb H) as (v & He & Hv & _).
  assert (Hvs : exists vs, (v = VSeq vs /\ def_of t = Some (TSequence el)) \/
                           (v = VArr vs /\ exists n, def_of t = Some (TArray n el))).
  { destruct Hd as [Hd|(n & Hd)]; destruct v; cbn [Spec.enc] in He; rewrite Hl in He; rewrite ?Hd in He; try discriminate;
      try (unfold def_of in Hd; destruct (classify t); discriminate); eauto 6. }
  destruct Hvs as (vs & Hvs).
  assert (Hs : seq_view types t el vs = Some (x_data x, x_info x)).
  { destruct Hvs as [[-> Hd1]|[-> (n & Hd1)] ].
    - rewrite <- Hv. symmetry. apply view_seq; assumption.
    - rewrite <- Hv. symmetry. eapply view_arr; eassumption. }
  unfold seq_view in Hs. destruct (peel_from types [] el) as [[inf fin]|]; [|discriminate].
  destruct (elems_view types el vs) as [ds|] eqn:Hds; [|discriminate]. injection Hs as Hx _.
  exists vs, ds, inf. split; [|split; [apply elems_view_forall, Hds|] ].
  - destruct Hvs as [[-> _]|[-> _] ]; [left|right]; exact He.
  - rewrite <- Hx. apply sequence_of_faithful.
Qed.
End Kinds2.
