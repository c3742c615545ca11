(** Faults and values exclude each other, and there is at most one fault (C62). *)
From Coq Require Import Lia ZifyBool ZifyNat ZifyN.
From Verif Require Import Base Compact Types Spec SpecBlame SpecFault ProofBase ProofCompact ProofUtf8 ProofLeaf ProofPeel ProofSpec ProofRel ProofMain ProofPrefixFree ProofBlame ProofFault.
Local Open Scope string_scope.
Local Open Scope list_scope.

Lemma stands_tails data a b p : stands data a p -> stands data b p -> exists r s, a ++ r = b ++ s.
Proof.
  intros (x & r & H1 & Hx) (y & s & H2 & Hy). exists r, s. rewrite H1 in H2.
  apply app_same_length in H2; [apply H2|congruence].
Qed.

Lemma stands_app_inv data a b p : stands data (a ++ b) p -> stands data a p /\ stands data b (p + List.length a).
Proof.
  rewrite !stands_has. intros [H Hp]. apply has_app in H. destruct H as [H1 H2]. pose proof (has_le _ _ _ H1 Hp). auto.
Qed.

Lemma stands_long data a p n : stands data a p -> (n <= N.of_nat (List.length a))%N -> lacks data p n -> False.
Proof.
  rewrite stands_has. unfold lacks. intros [H Hp] Hn Hl. pose proof (has_le _ _ _ H Hp). lia.
Qed.

Lemma stands_cons data x l p : stands data (x :: l) p -> nth_error data p = Some x /\ stands data l (p + 1).
Proof.
  rewrite !stands_has. intros [H Hp]. pose proof (has_le _ _ _ H Hp). cbn [List.length] in *. apply has_cons in H. destruct H. split; [auto|split; [auto|lia] ].
Qed.

Lemma stands_skipn data a rest p : skipn p data = a ++ rest -> (p <= List.length data)%nat -> stands data a p.
Proof.
  intros H Hp. exists (firstn p data), rest. split; [rewrite <- H; symmetry; apply firstn_skipn|]. apply firstn_length_le, Hp.
Qed.

Lemma skipn_long {A} p (l a : list A) rest : skipn p l = a ++ rest -> (a <> [] -> p <= List.length l)%nat.
Proof. intros H Ha. destruct (Nat.le_gt_cases p (List.length l)); [assumption|]. rewrite skipn_all2 in H by lia. destruct a; [contradiction|discriminate]. Qed.

Ltac bsplit := repeat match goal with Hh : (_ && _)%bool = true |- _ => apply andb_true_iff in Hh; destruct Hh end.

Lemma nth_error_Some_lt {A} (l : list A) n x : nth_error l n = Some x -> (n < List.length l)%nat.
Proof. intros H. apply nth_error_Some. congruence. Qed.

Section Excl.
Variable types : list ty.
Variable data : bytes.
Local Notation enc := (enc types).
Local Notation fault := (fault types data).
Local Notation stands := (stands data).
Local Notation lacks := (lacks data).

(** No value of the type stands at [p]. *)
Definition no_value (c : bool) (id : N) (p : nat) : Prop := forall v bs, enc c id v = Some bs -> ~ stands bs p.

Lemma same_value c id v w x y p : enc c id v = Some x -> enc c id w = Some y -> stands x p -> stands y p -> x = y.
Proof.
  intros Hv Hw Hx Hy. destruct (stands_tails _ _ _ _ Hx Hy) as (r & s & H). exact (proj1 (enc_prefix_free types v _ _ _ _ _ _ _ Hv Hw H)).
Qed.

Lemma same_number w n m p : fits w n = true -> fits w m = true -> stands (compact_enc n) p -> stands (compact_enc m) p -> n = m.
Proof.
  intros Hn Hm Hx Hy. destruct (stands_tails _ _ _ _ Hx Hy) as (r & s & H). exact (proj1 (compact_free w n m r s Hn Hm H)).
Qed.

Section Lists.
Context {A : Type}.
Variable c : bool.
Variable f : A -> N.
Local Notation encl := (enc_list (fun a => enc c (f a))).

Lemma split_same : forall l1 a l2 m1 a2 m2 vs bs ws cs p, l1 ++ a :: l2 = m1 ++ a2 :: m2 -> encl l1 vs = Some bs -> encl m1 ws = Some cs ->
  stands bs p -> stands cs p -> no_value c (f a) (p + List.length bs) -> no_value c (f a2) (p + List.length cs) -> a = a2 /\ bs = cs.
Proof.
  induction l1 as [|x l1 IH]; intros a l2 [|y m1] a2 m2 vs bs ws cs p Heq Hb Hc Hs1 Hs2 N1 N2; cbn [app] in Heq; injection Heq as Hx Heq.
  - apply enc_list_nil in Hb, Hc. destruct Hb as [_ ->], Hc as [_ ->]. auto.
  - apply enc_list_nil in Hb. destruct Hb as [_ ->]. apply enc_list_cons in Hc. destruct Hc as (w & ws' & b1 & b2 & _ & Hw & _ & ->).
    apply stands_app_inv in Hs2. subst y. cbn [List.length] in N1. rewrite Nat.add_0_r in N1. destruct (N1 _ _ Hw (proj1 Hs2)).
  - apply enc_list_nil in Hc. destruct Hc as [_ ->]. apply enc_list_cons in Hb. destruct Hb as (w & ws' & b1 & b2 & _ & Hw & _ & ->).
    apply stands_app_inv in Hs1. subst x. cbn [List.length] in N2. rewrite Nat.add_0_r in N2. destruct (N2 _ _ Hw (proj1 Hs1)).
  - subst y. apply enc_list_cons in Hb, Hc. destruct Hb as (v & vs' & b1 & b2 & -> & Hv & Hb & ->). destruct Hc as (w & ws' & c1 & c2 & -> & Hw & Hc & ->).
    apply stands_app_inv in Hs1, Hs2. destruct Hs1 as [Hs1 Ht1], Hs2 as [Hs2 Ht2]. pose proof (same_value _ _ _ _ _ _ _ Hv Hw Hs1 Hs2) as <-.
    rewrite app_length, Nat.add_assoc in N1, N2. destruct (IH _ _ _ _ _ _ _ _ _ _ Heq Hb Hc Ht1 Ht2 N1 N2) as [-> ->]. auto.
Qed.

(** A list of values has a value at each place. *)
Lemma list_reach : forall l1 a l2 vs bs ws cs p, encl (l1 ++ a :: l2) vs = Some cs -> encl l1 ws = Some bs -> stands bs p -> stands cs p ->
  exists v b, enc c (f a) v = Some b /\ stands b (p + List.length bs).
Proof.
  induction l1 as [|x l1 IH]; intros a l2 vs bs ws cs p Hc Hb Hs1 Hs2; cbn [app] in Hc.
  - apply enc_list_nil in Hb. destruct Hb as [_ ->]. apply enc_list_cons in Hc. destruct Hc as (w & ws' & b1 & b2 & _ & Hw & _ & ->).
    apply stands_app_inv in Hs2. exists w, b1. cbn [List.length]. rewrite Nat.add_0_r. split; [exact Hw|apply Hs2].
  - apply enc_list_cons in Hb, Hc. destruct Hb as (v & vs' & b1 & b2 & -> & Hv & Hb & ->). destruct Hc as (w & ws' & c1 & c2 & -> & Hw & Hc & ->).
    apply stands_app_inv in Hs1, Hs2. destruct Hs1 as [Hs1 Ht1], Hs2 as [Hs2 Ht2]. pose proof (same_value _ _ _ _ _ _ _ Hv Hw Hs1 Hs2) as <-.
    rewrite app_length, Nat.add_assoc. eapply IH; eauto.
Qed.
End Lists.

(** Elements as lists. *)
Lemma enc_all_list c i : forall vs, enc_all (enc c i) vs = enc_list (enc c) (repeat i (List.length vs)) vs.
Proof. induction vs as [|v vs IH]; [reflexivity|]. cbn [enc_all List.length repeat enc_list]. fold (enc_all (enc c i)). rewrite IH. reflexivity. Qed.

Lemma repeat_split (i : N) n k : (k < n)%nat -> repeat i n = repeat i k ++ i :: repeat i (n - k - 1).
Proof. intros H. replace n with (k + (1 + (n - k - 1)))%nat at 1 by lia. rewrite repeat_app. reflexivity. Qed.

Lemma elements_same c i n vs bs ws cs p : (N.of_nat (List.length vs) < n)%N -> (N.of_nat (List.length ws) < n)%N ->
  enc_all (enc c i) vs = Some bs -> enc_all (enc c i) ws = Some cs -> stands bs p -> stands cs p ->
  no_value c i (p + List.length bs) -> no_value c i (p + List.length cs) -> bs = cs.
Proof.
  rewrite !enc_all_list. intros H1 H2 Hb Hc Hs1 Hs2 N1 N2.
  refine (proj2 (split_same c (fun i => i) _ i _ _ i _ vs bs ws cs p _ Hb Hc Hs1 Hs2 N1 N2)).
  rewrite <- (repeat_split i (N.to_nat n)) by lia. apply repeat_split. lia.
Qed.

Lemma elements_reach c i n vs bs ws cs p : (N.of_nat (List.length ws) < n)%N -> n = N.of_nat (List.length vs) ->
  enc_all (enc c i) vs = Some cs -> enc_all (enc c i) ws = Some bs -> stands bs p -> stands cs p -> exists v b, enc c i v = Some b /\ stands b (p + List.length bs).
Proof.
  rewrite !enc_all_list. intros H1 H2 Hc Hb Hs1 Hs2. rewrite (repeat_split i (List.length vs) (List.length ws)) in Hc by lia.
  exact (list_reach c (fun i => i) _ _ _ _ _ _ _ _ Hc Hb Hs1 Hs2).
Qed.

(** *** Shapes of encodings *)

Lemma enc_by_def cpt id t d v bs : lookup types id = Some t -> def_of t = Some d -> enc cpt id v = Some bs ->
  match d with
  | TPrimitive PrBool => cpt = false /\ exists x : bool, bs = [if x then 1%N else 0%N]
  | TPrimitive PrChar => cpt = false /\ exists n, scalar n = true /\ bs = le_bytes 4 n
  | TPrimitive PrStr => cpt = false /\ exists l, forallb scalar l = true /\ fits U32 (N.of_nat (List.length (utf8s l))) = true /\
      bs = compact_enc (N.of_nat (List.length (utf8s l))) ++ utf8s l
  | TPrimitive (PrU w) => if cpt then exists n, fits w n = true /\ bs = compact_enc n else List.length bs = usize w
  | TPrimitive (PrI w) => cpt = false /\ List.length bs = usize w
  | TPrimitive _ => cpt = false /\ List.length bs = 32%nat
  | TComposite fs => (cpt = true -> (List.length fs <= 1)%nat) /\ exists vs, enc_list (fun f => enc cpt (f_ty f)) fs vs = Some bs
  | TTuple ids => (cpt = true -> (List.length ids <= 1)%nat) /\ exists vs, enc_list (enc cpt) ids vs = Some bs
  | TVariant vs => cpt = false /\ enum_enc types t vs v bs
  | TSequence el => cpt = false /\ exists vs rest, fits U32 (N.of_nat (List.length vs)) = true /\ enc_all (enc false el) vs = Some rest /\
      bs = compact_enc (N.of_nat (List.length vs)) ++ rest
  | TArray n el => cpt = false /\ exists vs, n = N.of_nat (List.length vs) /\ enc_all (enc false el) vs = Some bs
  | TCompact inner => cpt = false /\ exists w, enc true inner w = Some bs
  | TBitSequence store order => cpt = false /\ exists w o n rest, bit_store types store = Some w /\ bit_order_of types order = Some o /\
      fits U32 n = true /\ (n <= max_bits)%N /\ bs = compact_enc n ++ rest /\ N.of_nat (List.length rest) = bits_bytes w n
  end.
Proof.
  intros Hl Hd H.
  assert (Hc : match classify t with SpPlain | SpMultiSig | SpItem _ => True | _ => False end) by (unfold def_of in Hd; destruct (classify t); try discriminate; exact I).
  destruct d as [fs|vs|el|len el|ids|x|inner|store order].
  2:{ exact (enum_inv _ _ _ _ _ _ _ Hl Hd H). }
  all: destruct v; cbn [Spec.enc] in H; rewrite Hl, ?Hd in H; try discriminate;
    try (destruct (classify t); try contradiction; discriminate).
  - destruct (cpt && Nat.leb 2 (List.length fs))%bool eqn:Hb; [discriminate|]. split; [intros ->; cbn [andb] in Hb; lia|]. eauto.
  - destruct (_ && _)%bool eqn:Hb; [|discriminate]. apply andb_true_iff in Hb. destruct Hb as [Hb1 Hb2]. destruct (enc_all _ _) as [rest|] eqn:He; [|discriminate].
    cbn [option_map] in H. injection H as <-. split; [destruct cpt; [discriminate|reflexivity]|]. eauto.
  - destruct (_ && _)%bool eqn:Hb; [|discriminate]. apply andb_true_iff in Hb. destruct Hb as [Hb1 Hb2].
    split; [destruct cpt; [discriminate|reflexivity]|]. exists l. split; [lia|exact H].
  - destruct (cpt && Nat.leb 2 (List.length ids))%bool eqn:Hb; [discriminate|]. split; [intros ->; cbn [andb] in Hb; lia|]. eauto.
  - assert (Hg : match x with PrU w => guard (fits w n) (if cpt then compact_enc n else le_bytes (usize w) n) = Some bs
                 | PrU256 => guard (negb cpt && (n <? 2 ^ 256)%N) (le_bytes 32 n) = Some bs
                 | PrChar => guard (negb cpt && scalar n) (le_bytes 4 n) = Some bs | _ => False end).
    { destruct (classify t); try contradiction; destruct x; try discriminate; exact H. }
    clear H. destruct x as [| | |w| | |]; try contradiction; apply guard_ok in Hg; destruct Hg as [Hg ->].
    + apply andb_true_iff in Hg. destruct Hg. split; [destruct cpt; [discriminate|reflexivity]|]. eauto.
    + destruct cpt; [eauto|apply le_bytes_length].
    + apply andb_true_iff in Hg. destruct Hg. split; [destruct cpt; [discriminate|reflexivity]|]. apply le_bytes_length.
  - destruct x as [| | |w| |w|]; try discriminate; apply guard_ok in H; destruct H as [H ->]; bsplit; (split; [destruct cpt; [discriminate|reflexivity]|]; apply le_bytes_length).
  - destruct x as [| | |w| |w|]; try discriminate; apply guard_ok in H; destruct H as [H ->]. split; [destruct cpt; [discriminate|reflexivity]|]. eauto.
  - destruct x as [| | |w| |w|]; try discriminate. cbv zeta in H. apply guard_ok in H; destruct H as [H ->]. bsplit. split; [destruct cpt; [discriminate|reflexivity]|]. eauto.
  - destruct cpt; [discriminate|]. eauto.
  - destruct (bit_order_of types order) as [o|] eqn:Ho; [|discriminate]. destruct (bit_store types store) as [w|] eqn:Hw; [|discriminate]. cbv zeta in H.
    apply guard_ok in H. destruct H as [H ->]. bsplit. split; [destruct cpt; [discriminate|reflexivity]|].
    exists w, o, n, (flat_map (le_bytes (usize w)) elems). split; [reflexivity|]. split; [reflexivity|]. split; [apply bits_fit; assumption|]. split; [lia|].
    split; [reflexivity|]. rewrite flat_le_bytes_length. unfold bits_bytes. lia.
Qed.

Lemma enc_special cpt id t v bs : lookup types id = Some t -> enc cpt id v = Some bs ->
  match classify t with
  | SpRaw k => cpt = false /\ List.length bs = raw_len k
  | SpHash => cpt = false /\ List.length bs = 32%nat
  | SpEra => cpt = false /\ exists e, era_valid e = true /\ bs = era_enc e
  | SpPer k => exists n, if cpt then fits (part_width k) n = true /\ bs = compact_enc n else (n <= whole k)%N /\ bs = le_bytes (usize (part_width k)) n
  | _ => True
  end.
Proof.
  intros Hl H. assert (Hd : match classify t with SpPlain | SpMultiSig | SpItem _ => True | _ => def_of t = None end) by (unfold def_of; destruct (classify t); auto).
  destruct (classify t) as [|k| | |k| |it] eqn:Hc; try exact I.
  all: destruct v; cbn [Spec.enc] in H; rewrite Hl, ?Hd, ?Hc in H; try discriminate.
  - apply guard_ok in H. destruct H as [H ->]. bsplit. split; [destruct cpt; [discriminate|reflexivity]|]. lia.
  - apply guard_ok in H. destruct H as [H ->]. bsplit. split; [destruct cpt; [discriminate|reflexivity]|]. lia.
  - apply guard_ok in H. destruct H as [H ->]. bsplit. split; [destruct cpt; [discriminate|reflexivity]|]. eauto.
  - exists n. destruct cpt; apply guard_ok in H; destruct H as [H ->]; [auto|]. split; [lia|reflexivity].
Qed.

Lemma part_whole k : fits (part_width k) (whole k) = true.
Proof. destruct k; vm_compute; reflexivity. Qed.

(** Sizes. *)
Lemma fixed_length id t k v bs : lookup types id = Some t -> fixed_size t = Some k -> enc false id v = Some bs -> List.length bs = k.
Proof.
  intros Hl Hf H. pose proof (enc_special _ _ _ _ _ Hl H) as Hs. destruct (def_of t) as [d|] eqn:Hd.
  - rewrite (fixed_size_def _ _ Hd) in Hf. pose proof (enc_by_def _ _ _ _ _ _ Hl Hd H) as He.
    destruct d as [| | | | |x| |]; try discriminate. destruct x; try discriminate; injection Hf as <-.
    + destruct He as [_ [z ->] ]. reflexivity.
    + destruct He as [_ (n & _ & ->)]. apply le_bytes_length.
    + exact He.
    + apply He.
    + apply He.
    + apply He.
  - unfold fixed_size in Hf. rewrite Hd in Hf. destruct (classify t) eqn:Hc; try discriminate; injection Hf as <-.
    + apply Hs.
    + apply Hs.
    + destruct Hs as (n & _ & ->). apply le_bytes_length.
Qed.

(** Encodings that begin with a number. *)
Lemma begins_number cpt id t w v bs : lookup types id = Some t -> begins t cpt = Some w -> enc cpt id v = Some bs ->
  exists n rest, fits w n = true /\ bs = compact_enc n ++ rest.
Proof.
  intros Hl Hf H. pose proof (enc_special _ _ _ _ _ Hl H) as Hs. destruct (def_of t) as [d|] eqn:Hd.
  - rewrite (begins_def _ _ _ Hd) in Hf. pose proof (enc_by_def _ _ _ _ _ _ Hl Hd H) as He.
    destruct d as [| |el| | |x| |store order]; try discriminate.
    + injection Hf as <-. destruct He as [_ (vs & rest & Hfit & _ & ->)]. eauto.
    + destruct x as [| | |w2| | |]; try discriminate; destruct cpt; try discriminate; injection Hf as <-.
      * destruct He as [_ (l & _ & Hfit & ->)]. eauto.
      * destruct He as (n & Hn & ->). exists n, []. rewrite app_nil_r. auto.
    + destruct cpt; try discriminate. injection Hf as <-. destruct He as [_ (w & o & n & rest & _ & _ & Hfit & _ & -> & _)]. eauto.
  - unfold begins in Hf. rewrite Hd in Hf. destruct (classify t) eqn:Hc; try discriminate. destruct cpt; [|discriminate]. injection Hf as <-.
    destruct Hs as (n & Hn & ->). exists n, []. rewrite app_nil_r. auto.
Qed.

Lemma stands_rest bs p : stands bs p -> exists rest, skipn p data = bs ++ rest.
Proof. intros (x & r & -> & <-). exists r. apply skipn_app_exact. Qed.

Lemma le_bytes_same k n m r s : (n < 256 ^ N.of_nat k)%N -> (m < 256 ^ N.of_nat k)%N -> le_bytes k n ++ r = le_bytes k m ++ s -> n = m.
Proof.
  intros Hn Hm H. apply app_same_length in H; [|rewrite !le_bytes_length; reflexivity]. destruct H as [H _].
  rewrite <- (le_val_le_bytes k n Hn), <- (le_val_le_bytes k m Hm), H. reflexivity.
Qed.

Lemma scalar_small n : scalar n = true -> (n < 256 ^ N.of_nat 4)%N.
Proof. unfold scalar. change (256 ^ N.of_nat 4)%N with 4294967296%N. lia. Qed.

Lemma part_small k n : fits (part_width k) n = true -> (n < 256 ^ N.of_nat (usize (part_width k)))%N.
Proof. rewrite fits_pow. lia. Qed.

Lemma wrong_excl cpt id t name p : lookup types id = Some t -> cpt = false -> (forall store order, def_of t <> Some (TBitSequence store order)) ->
  wrong types t name (skipn p data) -> no_value cpt id p.
Proof.
  intros Hl Hcpt Hnb Hw v bs He Hs. subst cpt. apply stands_rest in Hs. destruct Hs as (rest & Hs). rewrite Hs in Hw.
  pose proof (enc_special _ _ _ _ _ Hl He) as Hsp.
  assert (Hdef : forall d, def_of t = Some d -> _) by (intros d Hd; exact (enc_by_def _ _ _ _ _ _ Hl Hd He)).
  remember (bs ++ rest) as all eqn:Hall. destruct Hw as [z l Hd H0 H1|n l Hd Hn Hsc|s l Hd Hf Hno|y z l Hc Hno|k n l Hc Hf Hn|store order w o n l Hd].
  - destruct (Hdef _ Hd) as [_ [x ->] ]. cbn [app] in Hall. injection Hall as -> _. destruct x; congruence.
  - destruct (Hdef _ Hd) as [_ (m & Hm & ->)]. apply le_bytes_same in Hall; [congruence|exact Hn|apply scalar_small, Hm].
  - destruct (Hdef _ Hd) as [_ (cs & Hcs & Hf2 & ->)]. rewrite <- app_assoc in Hall. apply (compact_free U32) in Hall; [|assumption..].
    destruct Hall as [Hn Hall]. apply app_same_length in Hall; [|lia]. exact (Hno cs Hcs (proj1 Hall)).
  - rewrite Hc in Hsp. destruct Hsp as [_ (e & Hv & ->)]. exact (Hno e rest Hv Hall).
  - rewrite Hc in Hsp. destruct Hsp as (m & Hm & ->). apply le_bytes_same in Hall; [lia|apply part_small, Hf|].
    pose proof (part_small k _ (part_whole k)). lia.
  - exact (Hnb _ _ Hd).
Qed.

Lemma leaf_excl cpt id t p x : lookup types id = Some t -> leaf_fault types data t cpt p x -> no_value cpt id p.
Proof.
  intros Hl H v bs He Hs. pose proof (enc_special _ _ _ _ _ Hl He) as Hsp.
  assert (Hdef : forall d, def_of t = Some d -> _) by (intros d Hd; exact (enc_by_def _ _ _ _ _ _ Hl Hd He)).
  destruct H as [k Hc Hk Hlk|w Hb Hno|Hc Hcl Hlk|y Hc Hcl Hy Hy0 Hlk|n Hc Hd Hf Hn Hlk|store order w n Hc Hd Ho Hw Hf Hn Hlk
    |store order w o n Hc Hd Ho Hw Hf Hm Hn Hlk|name Hc Hnb Hw].
  - subst cpt. pose proof (fixed_length _ _ _ _ _ Hl Hk He) as Hlen. eapply stands_long; eauto. lia.
  - destruct (begins_number _ _ _ _ _ _ Hl Hb He) as (n & rest & Hf & ->). apply stands_app_inv in Hs. exact (Hno n Hf (proj1 Hs)).
  - rewrite Hcl in Hsp. destruct Hsp as [_ (e & Hv & ->)]. eapply stands_long; eauto.
    destruct (era_enc_shape e Hv) as [[_ Hsh]|(b0 & b1 & Hsh & _)]; rewrite Hsh; cbn [List.length]; lia.
  - rewrite Hcl in Hsp. destruct Hsp as [_ (e & Hv & ->)].
    destruct (era_enc_shape e Hv) as [[_ Hsh]|(b0 & b1 & Hsh & _)]; rewrite Hsh in Hs.
    + apply stands_cons in Hs. destruct Hs as [Hs _]. congruence.
    + eapply stands_long; eauto. cbn [List.length]. lia.
  - destruct (Hdef _ Hd) as [_ (cs & Hcs & Hf2 & ->)]. apply stands_app_inv in Hs. destruct Hs as [Hs1 Hs2].
    pose proof (same_number _ _ _ _ Hf Hf2 Hn Hs1) as Hnm. rewrite <- Hnm in Hs2. eapply stands_long; eauto. lia.
  - destruct (Hdef _ Hd) as [_ (w2 & o2 & m & rest & Hw2 & _ & Hf2 & _ & -> & Hlen)]. assert (w2 = w) by congruence. subst w2.
    pose proof Hs as Hs0. apply stands_app_inv in Hs. destruct Hs as [Hs1 Hs2]. pose proof (same_number _ _ _ _ Hf Hf2 Hn Hs1) as <-.
    eapply stands_long; [exact Hs0| |exact Hlk]. rewrite app_length. lia.
  - destruct (Hdef _ Hd) as [_ (w2 & o2 & m & rest & Hw2 & _ & Hf2 & Hm2 & -> & Hlen)].
    apply stands_app_inv in Hs. destruct Hs as [Hs1 Hs2]. pose proof (same_number _ _ _ _ Hf Hf2 Hn Hs1) as <-. lia.
  - exact (wrong_excl _ _ _ _ _ Hl Hc Hnb Hw v bs He Hs).
Qed.

(** Types that faults of leaves are about. *)
Lemma leaf_shape t cpt p x d : leaf_fault types data t cpt p x -> def_of t = Some d ->
  match d with TPrimitive _ | TBitSequence _ _ => True | TSequence _ => x = NoCompact p /\ no_number data U32 p | _ => False end.
Proof.
  intros H Hd. assert (Hcl : match classify t with SpPlain | SpMultiSig | SpItem _ => True | _ => False end).
  { unfold def_of in Hd. destruct (classify t); try discriminate; exact I. }
  destruct H as [k Hc Hk Hlk|w Hb Hno|Hc Hc2 Hlk|y Hc Hc2 Hy Hy0 Hlk|n Hc Hd2 Hf Hn Hlk|store order w n Hc Hd2 Ho Hw Hf Hn Hlk
    |store order w o n Hc Hd2 Ho Hw Hf Hm Hn Hlk|name Hc Hnb Hw].
  - rewrite (fixed_size_def _ _ Hd) in Hk. destruct d; try discriminate. exact I.
  - rewrite (begins_def _ _ _ Hd) in Hb. destruct d; try discriminate; try exact I. injection Hb as <-. auto.
  - rewrite Hc2 in Hcl. contradiction.
  - rewrite Hc2 in Hcl. contradiction.
  - assert (d = TPrimitive PrStr) by congruence. subst d. exact I.
  - assert (d = TBitSequence store order) by congruence. subst d. exact I.
  - assert (d = TBitSequence store order) by congruence. subst d. exact I.
  - destruct Hw as [z l Hd2 H0 H1|n l Hd2 Hn Hsc|s l Hd2 Hf Hno|y z l Hc2 Hno|k n l Hc2 Hf Hn|store order w o n l Hd2].
    + assert (d = TPrimitive PrBool) by congruence. subst d. exact I.
    + assert (d = TPrimitive PrChar) by congruence. subst d. exact I.
    + assert (d = TPrimitive PrStr) by congruence. subst d. exact I.
    + rewrite Hc2 in Hcl. contradiction.
    + rewrite Hc2 in Hcl. contradiction.
    + destruct (Hnb _ _ Hd2).
Qed.

(** What the bytes of a wrong value are. *)
Lemma skipn_stands a rest p : a <> [] -> skipn p data = a ++ rest -> stands a p.
Proof. intros Ha H. eapply stands_skipn; [exact H|]. exact (skipn_long _ _ _ _ H Ha). Qed.

Inductive wrong_shape (t : ty) (p : nat) : string -> Prop :=
| WS_size k name : fixed_size t = Some k -> ~ lacks p (N.of_nat k) -> begins t false = None -> classify t <> SpEra ->
    def_of t <> Some (TPrimitive PrStr) -> (def_of t = Some (TPrimitive PrBool) /\ name = "bool" \/ def_of t = Some (TPrimitive PrChar) /\ name = "char" \/
      exists q, classify t = SpPer q /\ name = part_text q) -> wrong_shape t p name
| WS_text n : def_of t = Some (TPrimitive PrStr) -> fits U32 n = true -> stands (compact_enc n) p -> ~ lacks (p + List.length (compact_enc n)) n -> wrong_shape t p "str"
| WS_era : classify t = SpEra -> ~ lacks p 2 -> wrong_shape t p "Era".

Lemma compact_not_nil n : compact_enc n <> [].
Proof. exact (compact_enc_nonempty n). Qed.

Lemma wrong_bytes t name p : (forall store order, def_of t <> Some (TBitSequence store order)) ->
  wrong types t name (skipn p data) -> wrong_shape t p name.
Proof.
  intros Hnb Hw. remember (skipn p data) as all eqn:Hall. destruct Hw as [z l Hd H0 H1|n l Hd Hn Hsc|s l Hd Hf Hno|y z l Hc Hno|k n l Hc Hf Hn|store order w o n l Hd].
  - apply (WS_size _ _ 1%nat).
    + rewrite (fixed_size_def _ _ Hd). reflexivity.
    + intros Hlk. refine (stands_long data [z] p _ _ _ Hlk); [|cbn [List.length]; lia]. apply (skipn_stands _ l); [discriminate|auto].
    + rewrite (begins_def _ _ _ Hd). reflexivity.
    + unfold def_of in Hd. destruct (classify t); discriminate.
    + congruence.
    + auto.
  - apply (WS_size _ _ 4%nat).
    + rewrite (fixed_size_def _ _ Hd). reflexivity.
    + intros Hlk. refine (stands_long data (le_bytes 4 n) p _ _ _ Hlk); [|rewrite le_bytes_length; lia]. apply (skipn_stands _ l); [discriminate|auto].
    + rewrite (begins_def _ _ _ Hd). reflexivity.
    + unfold def_of in Hd. destruct (classify t); discriminate.
    + congruence.
    + auto.
  - assert (Hs : stands (compact_enc (N.of_nat (List.length s)) ++ s) p).
    { apply (skipn_stands _ l); [intros H; apply app_eq_nil in H; exact (compact_not_nil _ (proj1 H))|rewrite <- app_assoc; auto]. }
    apply stands_app_inv in Hs. destruct Hs as [Hs1 Hs2]. eapply WS_text; eauto. intros Hlk. eapply stands_long; eauto. lia.
  - apply WS_era; [exact Hc|]. intros Hlk. refine (stands_long data [y; z] p _ _ _ Hlk); [|cbn [List.length]; lia]. apply (skipn_stands _ l); [discriminate|auto].
  - assert (Hd : def_of t = None) by (unfold def_of; rewrite Hc; reflexivity). apply (WS_size _ _ (usize (part_width k))).
    + unfold fixed_size. rewrite Hc. reflexivity.
    + intros Hlk. refine (stands_long data (le_bytes (usize (part_width k)) n) p _ _ _ Hlk); [|rewrite le_bytes_length; lia]. apply (skipn_stands _ l); [destruct k; discriminate|auto].
    + unfold begins. rewrite Hc, Hd. reflexivity.
    + congruence.
    + congruence.
    + eauto.
  - destruct (Hnb _ _ Hd).
Qed.

Lemma wrong_name t p n1 n2 : wrong_shape t p n1 -> wrong_shape t p n2 -> n1 = n2.
Proof.
  intros H1 H2. destruct H1 as [k1 a Hf1 _ Hb1 He1 Hs1 Hn1|m1 Hd1|Hc1], H2 as [k2 c Hf2 _ Hb2 He2 Hs2 Hn2|m2 Hd2|Hc2]; try reflexivity; try congruence.
  - assert (Hx : forall q d, classify t = SpPer q -> def_of t <> Some d) by (intros q d H; unfold def_of; rewrite H; discriminate).
    destruct Hn1 as [ [K1 ->] | [ [K1 ->] | (q1 & K1 & ->) ] ], Hn2 as [ [K2 ->] | [ [K2 ->] | (q2 & K2 & ->) ] ]; try reflexivity; try congruence; exfalso; eapply Hx; eauto.
  - unfold def_of in Hd1. rewrite Hc2 in Hd1. discriminate.
  - unfold def_of in Hd2. rewrite Hc1 in Hd2. discriminate.
Qed.

(** One fault of a leaf. *)
Lemma leaf_det t cpt p x y : leaf_fault types data t cpt p x -> leaf_fault types data t cpt p y -> x = y.
Proof.
  assert (Hera : classify t = SpEra -> fixed_size t = None /\ (forall w, begins t cpt <> Some w) /\ (forall d, def_of t <> Some d)).
  { intros H. unfold fixed_size, begins, def_of. rewrite H. repeat split; intros; discriminate. }
  assert (Hstr : def_of t = Some (TPrimitive PrStr) -> fixed_size t = None /\ (cpt = false -> begins t cpt = Some U32)).
  { intros H. rewrite (fixed_size_def _ _ H), (begins_def _ _ _ H). split; [reflexivity|]. intros ->. reflexivity. }
  assert (Hbit : forall store order, def_of t = Some (TBitSequence store order) -> fixed_size t = None /\ (cpt = false -> begins t cpt = Some U32)).
  { intros store order H. rewrite (fixed_size_def _ _ H), (begins_def _ _ _ H). split; [reflexivity|]. intros ->. reflexivity. }
  assert (Hfix : forall k w, cpt = false -> fixed_size t = Some k -> begins t cpt <> Some w).
  { intros k w -> Hk Hb. destruct (def_of t) as [d|] eqn:Hd.
    - rewrite (fixed_size_def _ _ Hd) in Hk. rewrite (begins_def _ _ _ Hd) in Hb. destruct d as [| | | | |z| |]; try discriminate. destruct z; discriminate.
    - unfold begins in Hb. rewrite Hd in Hb. destruct (classify t); discriminate. }
  assert (Hws : forall name w, cpt = false -> wrong_shape t p name -> begins t cpt = Some w -> exists n, w = U32 /\ fits U32 n = true /\ stands (compact_enc n) p).
  { intros name w Hc Hw Hb. destruct Hw as [k a Hf _ Hb1 He1 Hs1 Hn1|m Hd Hfit Hst _|Hcl].
    - subst cpt. congruence.
    - exists m. destruct (Hstr Hd) as [_ Hs]. specialize (Hs Hc). split; [congruence|auto].
    - destruct (Hera Hcl) as (_ & K & _). destruct (K _ Hb). }
  assert (Hsize : forall name k, wrong_shape t p name -> fixed_size t = Some k -> ~ lacks p (N.of_nat k)).
  { intros name k Hw Hk. destruct Hw as [k1 a Hf1 Hl1 _ _ _ _|m Hd _ _ _|Hcl _].
    - assert (k1 = k) by congruence. subst k1. exact Hl1.
    - destruct (Hstr Hd). congruence.
    - destruct (Hera Hcl) as (? & _). congruence. }
  assert (Heraw : forall name, wrong_shape t p name -> classify t = SpEra -> ~ lacks p 2).
  { intros name Hw Hcl. destruct Hw as [k1 a Hf1 Hl1 _ Hn _ _|m Hd _ _ _|_ Hl]; [congruence| |exact Hl]. destruct (Hera Hcl) as (_ & _ & K). destruct (K _ Hd). }
  assert (Htxt : forall name n, wrong_shape t p name -> def_of t = Some (TPrimitive PrStr) -> fits U32 n = true -> stands (compact_enc n) p ->
     ~ lacks (p + List.length (compact_enc n)) n).
  { intros name n Hw Hd Hf Hs. destruct Hw as [k1 a Hf1 Hl1 _ _ Hn _|m _ Hf2 Hs2 Hl|Hcl _]; [congruence| |].
    - pose proof (same_number U32 n m p Hf Hf2 Hs Hs2) as ->. exact Hl.
    - destruct (Hera Hcl) as (_ & _ & K). destruct (K _ Hd). }
  intros H1 H2.
  destruct H1 as [k Hc Hk Hlk|w Hb Hno|Hc Hcl Hlk|z Hc Hcl Hy Hy0 Hlk|n Hc Hd Hf Hn Hlk|store order w n Hc Hd Ho Hw Hf Hn Hlk
    |store order w o n Hc Hd Ho Hw Hf Hm Hn Hlk|name Hc Hnb Hw];
  destruct H2 as [k2 Hc2 Hk2 Hlk2|w2 Hb2 Hno2|Hc2 Hcl2 Hlk2|z2 Hc2 Hcl2 Hy2 Hy02 Hlk2|n2 Hc2 Hd2 Hf2 Hn2 Hlk2|store2 order2 w2 n2 Hc2 Hd2 Ho2 Hw2 Hf2 Hn2 Hlk2
    |store2 order2 w2 o2 n2 Hc2 Hd2 Ho2 Hw2 Hf2 Hm2 Hn2 Hlk2|name2 Hc2 Hnb2 Hw2]; try reflexivity; try congruence;
  repeat match goal with Hx : classify t = SpEra |- _ => destruct (Hera Hx) as (? & ? & ?); clear Hera end;
  repeat match goal with Hx : def_of t = Some (TPrimitive PrStr) |- _ => destruct (Hstr Hx) as (? & ?); clear Hstr end;
  repeat match goal with Hx : def_of t = Some (TBitSequence _ _) |- _ => destruct (Hbit _ _ Hx) as (? & ?); clear Hbit end;
  try congruence; try (exfalso; eauto; congruence);
  repeat match goal with Hx : wrong _ _ _ _ |- _ => apply wrong_bytes in Hx; [|assumption] end.
  all: try match goal with Hx : wrong_shape _ _ _ , Hb0 : begins _ _ = Some _, K : _ = false |- _ => exfalso; destruct (Hws _ _ K Hx Hb0) as (m & -> & Hfm & Hsm);
     match goal with A : no_number _ U32 _ |- _ => exact (A m Hfm Hsm) end end.
  all: try match goal with A : fits U32 ?a = true, B : fits U32 ?c = true, C : stands (compact_enc ?a) ?q, D : stands (compact_enc ?c) ?q |- _ =>
     assert (c = a) by exact (same_number U32 c a q B A D C); subst c end.
  all: try match goal with A : bit_store _ _ = Some ?a, B : bit_store _ _ = Some ?c |- _ => assert (c = a) by congruence; subst c end.
  all: try reflexivity; try congruence; try contradiction.
  all: try match goal with A : fixed_size _ = Some _, B : begins _ _ = Some _, K : _ = false |- _ => destruct (Hfix _ _ K A B) end.
  all: try match goal with A : begins _ _ = Some ?w, B : _ = false -> begins _ _ = Some U32, K : _ = false, F : fits U32 ?n = true, S : stands (compact_enc ?n) _, N0 : no_number _ ?w _ |- _ =>
     exfalso; specialize (B K); assert (w = U32) by congruence; subst w; exact (N0 _ F S) end.
  all: try match goal with A : wrong_shape _ _ _, B : fixed_size _ = Some ?k, C : lacks _ (N.of_nat ?k) |- _ => destruct (Hsize _ _ A B C) end.
  all: try match goal with A : nth_error _ _ = Some _, C : lacks _ 1 |- _ => exfalso; apply nth_error_Some_lt in A; unfold SpecFault.lacks in C; lia end.
  all: try match goal with A : wrong_shape _ _ _, B : classify _ = SpEra, C : lacks _ 1 |- _ => destruct (Heraw _ A B); unfold SpecFault.lacks in *; lia end.
  all: try match goal with A : wrong_shape _ _ _, B : classify _ = SpEra, C : lacks _ 2 |- _ => destruct (Heraw _ A B); exact C end.
  all: try match goal with A : wrong_shape _ _ _, B : def_of _ = Some (TPrimitive PrStr), C : fits U32 ?n = true, D : stands (compact_enc ?n) _, F : lacks _ ?n |- _ => destruct (Htxt _ _ A B C D F) end.
  f_equal. eapply wrong_name; eauto.
Qed.

(** *** All faults *)

Lemma index_det vs p x y : index_fault data vs p x -> index_fault data vs p y -> x = y.
Proof.
  intros [Hl|b Hb _] [Hl2|b2 Hb2 _]; try reflexivity; exfalso.
  - apply nth_error_Some_lt in Hb2. unfold SpecFault.lacks in Hl. lia.
  - apply nth_error_Some_lt in Hb. unfold SpecFault.lacks in Hl2. lia.
Qed.

Lemma index_excl vs p x i l v : index_fault data vs p x -> by_index vs i = Some v -> stands (i :: l) p -> False.
Proof.
  intros H Hv Hs. apply stands_cons in Hs. destruct Hs as [Hs _]. destruct H as [Hl|b Hb Hno].
  - apply nth_error_Some_lt in Hs. unfold SpecFault.lacks in Hl. lia.
  - congruence.
Qed.

Lemma index_excl2 vs p x i v : index_fault data vs p x -> by_index vs i = Some v -> nth_error data p = Some i -> False.
Proof.
  intros H Hv Hs. destruct H as [Hl|b Hb Hno].
  - apply nth_error_Some_lt in Hs. unfold SpecFault.lacks in Hl. lia.
  - congruence.
Qed.

Lemma enum_at t vs v0 bs0 p b v : enum_enc types t vs v0 bs0 -> stands bs0 p -> nth_error data p = Some b -> by_index vs b = Some v ->
  (variant_sig types t v = None /\ pallet_items types t v = None /\ exists ws rest, enc_list (fun f => enc false (f_ty f)) (v_fields v) ws = Some rest /\ bs0 = b :: rest) \/
  (exists k l, variant_sig types t v = Some k /\ List.length l = raw_len k /\ bs0 = b :: l) \/
  (exists inner items j item ws rest, variant_sig types t v = None /\ pallet_items types t v = Some (inner, items) /\ by_index items j = Some item /\
     enc_list (fun f => enc false (f_ty f)) (v_fields item) ws = Some rest /\ bs0 = b :: j :: rest).
Proof.
  intros H Hs Hb Hv. destruct H as [->|i var ws rest H1 H2 H3 H4 H5|i var k l H1 H2 H3 H4 H5|i var inner items j item ws rest H1 H2 H3 H4 H5 H6 H7]; [discriminate| | |];
    apply stands_cons in Hs; destruct Hs as [Hi _]; assert (i = b) by congruence; subst i; assert (var = v) by congruence; subst var.
  - left. eauto 10.
  - right. left. eauto 10.
  - right. right. exists inner, items, j, item, ws, rest. auto.
Qed.

Theorem fault_excludes : forall cpt id p x, fault cpt id p x -> no_value cpt id p.
Proof.
  induction 1; intros v0 bs0 He Hs.
  - eapply leaf_excl; eauto.
  - destruct (enc_by_def _ _ _ _ _ _ H H0 He) as [_ (ws & Hws)].
    destruct (list_reach cpt f_ty _ _ _ _ _ _ _ _ Hws H2 H3 Hs) as (w & c & Hw & Hc). exact (IHfault _ _ Hw Hc).
  - destruct (enc_by_def _ _ _ _ _ _ H H0 He) as [_ (ws & Hws)].
    destruct (list_reach cpt (fun i => i) _ _ _ _ _ _ _ _ Hws H2 H3 Hs) as (w & c & Hw & Hc). exact (IHfault _ _ Hw Hc).
  - destruct (enc_by_def _ _ _ _ _ _ H0 H1 He) as [_ Hen]. destruct Hen; try contradiction; eapply index_excl; eauto.
  - destruct (enc_by_def _ _ _ _ _ _ H0 H1 He) as [_ Hen]. pose proof (stands_cons _ _ _ _ H7) as [Hb Ht].
    destruct (enum_at _ _ _ _ _ _ _ Hen Hs Hb H2) as [(_ & _ & us & rest & Hu & ->)|[(k & l & Hk & _)|(inner & items & j & item & us & rest & _ & Hp & _)]]; try congruence.
    apply stands_cons in Hs. rewrite H5 in Hu. destruct (list_reach false f_ty _ _ _ _ _ _ _ _ Hu H6 Ht (proj2 Hs)) as (w & c & Hw & Hc). exact (IHfault _ _ Hw Hc).
  - destruct (enc_by_def _ _ _ _ _ _ H0 H1 He) as [_ Hen].
    destruct (enum_at _ _ _ _ _ _ _ Hen Hs H4 H2) as [(Hk & _)|[(k2 & l & Hk & Hl & ->)|(inner & items & j & item & us & rest & Hk & _)]]; try congruence.
    assert (k2 = k) by congruence. subst k2. apply stands_cons in Hs. eapply stands_long; [apply Hs| |exact H5]. lia.
  - destruct (enc_by_def _ _ _ _ _ _ H0 H1 He) as [_ Hen].
    destruct (enum_at _ _ _ _ _ _ _ Hen Hs H4 H2) as [(Hk & Hp & _)|[(k2 & l & Hk & Hl & ->)|(inner2 & items2 & j & item & us & rest & Hk & Hp & Hj & _ & ->)]]; try congruence.
    + apply variant_sig_items in Hk. congruence.
    + assert (items2 = items) by congruence. subst items2. apply stands_cons in Hs. eapply index_excl; [exact H5|exact Hj|apply Hs].
  - destruct (enc_by_def _ _ _ _ _ _ H0 H1 He) as [_ Hen]. pose proof (stands_cons _ _ _ _ H7) as [Hb Ht]. pose proof (stands_cons _ _ _ _ Ht) as [Hb2 Ht2].
    destruct (enum_at _ _ _ _ _ _ _ Hen Hs Hb H2) as [(Hk & Hp & _)|[(k2 & l & Hk & Hl & ->)|(inner2 & items2 & j & item2 & us & rest & Hk & Hp & Hj & Hu & ->)]]; try congruence.
    + apply variant_sig_items in Hk. congruence.
    + assert (items2 = items) by congruence. subst items2. apply stands_cons in Hs. destruct Hs as [_ Hs]. apply stands_cons in Hs. destruct Hs as [Hj2 Hs].
      assert (j = b2) by congruence. subst j. assert (item2 = item) by congruence. subst item2. rewrite H5 in Hu.
      destruct (list_reach false f_ty _ _ _ _ _ _ _ _ Hu H6 Ht2 Hs) as (w & c & Hw & Hc). refine (IHfault _ _ Hw _).
      replace (p + 2 + List.length bs)%nat with (p + 1 + 1 + List.length bs)%nat by lia. exact Hc.
  - destruct (enc_by_def _ _ _ _ _ _ H0 H1 He) as [_ (us & rest & Hf & Hu & ->)]. apply stands_app_inv in H5, Hs. destruct H5 as [Hn1 Hb1], Hs as [Hn2 Hb2].
    pose proof (same_number U32 _ _ _ H2 Hf Hn1 Hn2) as Hn. rewrite <- Hn in Hb2.
    destruct (elements_reach false el n us bs vs rest _ H3 Hn Hu H4 Hb1 Hb2) as (w & c & Hw & Hc). refine (IHfault _ _ Hw _). rewrite app_length, Nat.add_assoc. exact Hc.
  - destruct (enc_by_def _ _ _ _ _ _ H0 H1 He) as [_ (us & Hn & Hu)].
    destruct (elements_reach false el n us bs vs bs0 _ H2 Hn Hu H3 H4 Hs) as (w & c & Hw & Hc). exact (IHfault _ _ Hw Hc).
  - destruct (enc_by_def _ _ _ _ _ _ H0 H1 He) as [_ (w & Hw)]. exact (IHfault _ _ Hw Hs).
Qed.

Ltac same_ty := match goal with A : lookup types ?i = Some ?t, B : lookup types ?i = Some ?u |- _ => assert (u = t) by congruence; subst u; clear B end.
Ltac same_def := match goal with A : def_of ?t = Some ?d, B : def_of ?t = Some ?e |- _ =>
  let K := fresh "K" in assert (K : e = d) by congruence; first [discriminate K | injection K as K; try subst; clear B] end.
Ltac same_byte := match goal with A : nth_error data ?p = Some ?x, B : nth_error data ?p = Some ?y |- _ => assert (y = x) by congruence; subst y; clear B end.
Ltac same_variant := match goal with A : by_index ?l ?i = Some ?x, B : by_index ?l ?i = Some ?y |- _ => assert (y = x) by congruence; subst y; clear B end.

Theorem fault_unique : forall cpt id p x, fault cpt id p x -> forall y, fault cpt id p y -> x = y.
Proof.
  induction 1; intros y Hy; destruct Hy; same_ty; try (same_def; fail).
  all: try match goal with A : leaf_fault _ _ _ _ _ _, B : leaf_fault _ _ _ _ _ _ |- _ => exact (leaf_det _ _ _ _ _ A B) end.
  all: try match goal with A : leaf_fault _ _ _ _ _ _, B : def_of _ = Some _ |- _ => destruct (leaf_shape _ _ _ _ _ A B); fail end.
  all: try match goal with A : leaf_fault _ _ _ _ _ _, B : def_of _ = Some (TSequence _), C : stands (compact_enc _ ++ _) _, F : fits U32 _ = true |- _ =>
     exfalso; destruct (leaf_shape _ _ _ _ _ A B) as [_ Hno]; exact (Hno _ F (proj1 (stands_app_inv _ _ _ _ C))) end.
  all: repeat match goal with A : stands (?i :: ?l) ?q |- _ => let K1 := fresh "K" in let K2 := fresh "K" in pose proof (stands_cons _ _ _ _ A) as [K1 K2]; clear A end.
  all: repeat same_byte; same_def; repeat same_byte; repeat same_variant; try reflexivity; try congruence.
  all: try match goal with A : index_fault _ _ _ _, B : index_fault _ _ _ _ |- _ => exact (index_det _ _ _ _ A B) end.
  all: try match goal with A : index_fault _ ?l ?q _, B : by_index ?l ?i = Some _, C : nth_error _ ?q = Some ?i |- _ => destruct (index_excl2 _ _ _ _ _ A B C) end.
  all: try match goal with A : variant_sig _ _ _ = Some _, B : pallet_items _ _ _ = Some _ |- _ => apply variant_sig_items in A; congruence end.
  all: try match goal with A : pallet_items _ ?t ?v = Some (?i1, ?l1), B : pallet_items _ ?t ?v = Some (?i2, ?l2) |- _ =>
     assert (i2 = i1 /\ l2 = l1) as [? ?] by (split; congruence); subst i2 l2; clear B end.
  all: repeat same_variant.
  all: try match goal with A : index_fault _ _ _ _, B : index_fault _ _ _ _ |- _ => exact (index_det _ _ _ _ A B) end.
  all: try match goal with A : index_fault _ ?l ?q _, B : by_index ?l ?i = Some _, C : nth_error _ ?q = Some ?i |- _ => destruct (index_excl2 _ _ _ _ _ A B C) end.
  all: try match goal with A : v_fields ?v = _, B : v_fields ?v = _ |- _ => rewrite A in B end.
  - destruct (split_same cpt f_ty _ _ _ _ _ _ _ _ _ _ _ K H8 H2 H9 H3 (fault_excludes _ _ _ _ Hy) (fault_excludes _ _ _ _ H4)) as [-> ->]. exact (IHfault _ Hy).
  - destruct (split_same cpt (fun i => i) _ _ _ _ _ _ _ _ _ _ _ K H8 H2 H9 H3 (fault_excludes _ _ _ _ Hy) (fault_excludes _ _ _ _ H4)) as [-> ->]. exact (IHfault _ Hy).
  - destruct (split_same false f_ty _ _ _ _ _ _ _ _ _ _ _ H15 H6 H16 K2 K0 (fault_excludes _ _ _ _ H8) (fault_excludes _ _ _ _ Hy)) as [-> ->]. exact (IHfault _ Hy).
  - assert (Hp2 : forall n, (p + 2 + n = p + 1 + 1 + n)%nat) by (intros; lia). rewrite Hp2 in H8, IHfault, Hy.
    destruct (split_same false f_ty _ _ _ _ _ _ _ _ _ _ _ H15 H6 H16 K5 K2 (fault_excludes _ _ _ _ H8) (fault_excludes _ _ _ _ Hy)) as [-> ->]. exact (IHfault _ Hy).
  - apply stands_app_inv in H5, H13. destruct H5 as [Hn1 Hb1], H13 as [Hn2 Hb2]. pose proof (same_number U32 _ _ _ H2 H10 Hn1 Hn2) as <-.
    rewrite app_length, Nat.add_assoc in H6, IHfault, Hy.
    pose proof (elements_same false el n _ _ _ _ _ H3 H11 H4 H12 Hb1 Hb2 (fault_excludes _ _ _ _ H6) (fault_excludes _ _ _ _ Hy)) as <-. exact (IHfault _ Hy).
  - pose proof (elements_same false el n _ _ _ _ _ H2 H9 H3 H10 H4 H11 (fault_excludes _ _ _ _ H5) (fault_excludes _ _ _ _ Hy)) as <-. exact (IHfault _ Hy).
  - exact (IHfault _ Hy).
Qed.
End Excl.
