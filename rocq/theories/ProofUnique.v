(** Different values of a type have different encodings, in any registry (C08, C62). *)
From Coq Require Import Lia ZifyBool ZifyNat ZifyN.
From Verif Require Import Base Compact Types Spec ProofBase ProofCompact ProofUtf8 ProofLeaf ProofRead ProofPeel ProofSpec ProofRel ProofMain ProofSee ProofPrefixFree.
Local Open Scope list_scope.

Lemma le_inj k n m : (n < 256 ^ N.of_nat k)%N -> (m < 256 ^ N.of_nat k)%N -> le_bytes k n = le_bytes k m -> n = m.
Proof. intros Hn Hm H. rewrite <- (le_val_le_bytes k n Hn), <- (le_val_le_bytes k m Hm), H. reflexivity. Qed.

Lemma fits_le w n m : fits w n = true -> fits w m = true -> le_bytes (usize w) n = le_bytes (usize w) m -> n = m.
Proof. rewrite !fits_pow. intros Hn Hm. apply le_inj; lia. Qed.

Lemma flat_inj w : forall l m, forallb (fits w) l = true -> forallb (fits w) m = true -> List.length l = List.length m ->
  flat_map (le_bytes (usize w)) l = flat_map (le_bytes (usize w)) m -> l = m.
Proof.
  induction l as [|x l IH]; intros [|y m] Hl Hm Hn H; cbn in Hn; try lia; [reflexivity|]. cbn [forallb] in Hl, Hm. apply andb_true_iff in Hl, Hm.
  cbn [flat_map] in H. apply app_same_length in H; [|rewrite !le_bytes_length; reflexivity]. destruct H as [H1 H2].
  f_equal; [apply (fits_le w); tauto|apply IH; try tauto; lia].
Qed.

Lemma era_inj e1 e2 : era_valid e1 = true -> era_valid e2 = true -> era_enc e1 = era_enc e2 -> e1 = e2.
Proof.
  intros H1 H2 H. destruct (era_enc_shape e1 H1) as [[-> Hs1]|(b0 & b1 & Hs1 & Hn1 & _ & _ & Hd1)], (era_enc_shape e2 H2) as [[-> Hs2]|(c0 & c1 & Hs2 & Hn2 & _ & _ & Hd2)];
    [reflexivity|rewrite Hs2 in H; discriminate|rewrite Hs1 in H; discriminate|].
  rewrite Hs1, Hs2 in H. injection H as -> ->. congruence.
Qed.

Ltac bsplit := repeat match goal with Hh : (_ && _)%bool = true |- _ => apply andb_true_iff in Hh; destruct Hh end.

Lemma scalar_small x : scalar x = true -> (x < 256 ^ N.of_nat 4)%N.
Proof. intros Hx. change (256 ^ N.of_nat 4)%N with 4294967296%N. unfold scalar in Hx. lia. Qed.

Lemma part_fits k x : (x <=? whole k)%N = true -> fits (part_width k) x = true.
Proof.
  assert (H : forall a b, (a <? b)%N = true -> (x <=? a)%N = true -> (x <? b)%N = true) by lia.
  unfold fits. apply H. destruct k; vm_compute; reflexivity.
Qed.

Lemma big_inj n m : (n <? 2 ^ 256)%N = true -> (m <? 2 ^ 256)%N = true -> le_bytes 32 n = le_bytes 32 m -> n = m.
Proof.
  assert (H : (2 ^ 256 = 256 ^ N.of_nat 32)%N) by (vm_compute; reflexivity). rewrite H, !N.ltb_lt. apply le_inj.
Qed.

Lemma int_inj k z y : (0 < k)%nat -> int_range k z = true -> int_range k y = true -> int_bytes k z = int_bytes k y -> z = y.
Proof. intros Hk H1 H2 H. rewrite <- (le_sval_int_bytes k z Hk H1), <- (le_sval_int_bytes k y Hk H2), H. reflexivity. Qed.

Lemma width_pos w : (0 < usize w)%nat.
Proof. destruct w; cbn; lia. Qed.

Section Unique.
Variable types : list ty.
Local Notation enc := (enc types).

Definition told (v : value) : Prop := forall cpt id w a, enc cpt id v = Some a -> enc cpt id w = Some a -> v = w.

Lemma list_told {A} (f : A -> bool * N) : forall ids vs ws a, Forall told vs ->
  enc_list (fun x => enc (fst (f x)) (snd (f x))) ids vs = Some a ->
  enc_list (fun x => enc (fst (f x)) (snd (f x))) ids ws = Some a -> vs = ws.
Proof.
  induction ids as [|i ids IH]; intros vs ws a Hf Ha Hb.
  - apply enc_list_nil in Ha, Hb. destruct Ha as [-> _], Hb as [-> _]. auto.
  - apply enc_list_cons in Ha, Hb. destruct Ha as (v & vs' & a1 & a2 & -> & Ha1 & Ha2 & ->), Hb as (w & ws' & b1 & b2 & -> & Hb1 & Hb2 & H).
    inversion Hf as [|? ? Hv Hvs]; subst. destruct (enc_prefix_free types v _ _ _ _ _ _ _ Ha1 Hb1 H) as [-> ->].
    f_equal; [eapply Hv; eauto|eapply IH; eauto].
Qed.

Lemma all_told c i : forall vs ws a, Forall told vs -> List.length vs = List.length ws ->
  enc_all (enc c i) vs = Some a -> enc_all (enc c i) ws = Some a -> vs = ws.
Proof.
  induction vs as [|v vs IH]; intros [|w ws] a Hf Hl Ha Hb; cbn in Hl; try lia; cbn [enc_all] in Ha, Hb; fold (enc_all (enc c i)) in Ha, Hb.
  - reflexivity.
  - destruct (enc c i v) as [a1|] eqn:Ha1; [|discriminate]. destruct (enc_all (enc c i) vs) as [a2|] eqn:Ha2; [|discriminate]. injection Ha as <-.
    destruct (enc c i w) as [b1|] eqn:Hb1; [|discriminate]. destruct (enc_all (enc c i) ws) as [b2|] eqn:Hb2; [|discriminate]. injection Hb as H.
    inversion Hf as [|? ? Hv Hvs]; subst. symmetry in H. destruct (enc_prefix_free types v _ _ _ _ _ _ _ Ha1 Hb1 H) as [-> ->].
    f_equal; [eapply Hv; eauto|eapply IH; eauto].
Qed.

Lemma enum_told t vs v w a : match v with VEnum _ l | VItem _ _ l => Forall told l | _ => True end ->
  enum_enc types t vs v a -> enum_enc types t vs w a -> v = w.
Proof.
  assert (Hnil : forall i var, by_index [] i = Some var -> False) by discriminate.
  intros Hf H1 H2. remember a as b eqn:Hab in H2. destruct H1; destruct H2; subst; try (exfalso; eauto; fail); try discriminate; auto;
    injection Hab as; subst;
    match goal with A : by_index ?l ?i = Some ?x, B : by_index ?l ?i = Some ?y |- _ => assert (y = x) by congruence; subst y; clear B end; try congruence.
  - f_equal. match goal with A : enc_list _ _ ws = Some _, B : enc_list _ _ ws0 = Some _ |- _ => exact (list_told (fun f => (false, f_ty f)) _ _ _ _ Hf A B) end.
  - match goal with A : pallet_items _ _ _ = Some _, B : pallet_items _ _ _ = Some _ |- _ => rewrite A in B; injection B as <- <- end.
    match goal with A : by_index items ?i = Some ?x, B : by_index items ?i = Some ?y |- _ => assert (y = x) by congruence; subst y; clear B end.
    f_equal. match goal with A : enc_list _ _ ws = Some _, B : enc_list _ _ ws0 = Some _ |- _ => exact (list_told (fun f => (false, f_ty f)) _ _ _ _ Hf A B) end.
Qed.

Lemma enum_case_told v w cpt id a : tagv v = 6%nat -> match v with VEnum _ l | VItem _ _ l => Forall told l | _ => True end ->
  enc cpt id v = Some a -> enc cpt id w = Some a -> v = w.
Proof.
  intros Hv Hf Ha Hb. destruct (enc_lookup _ _ _ _ _ Ha) as (t & Hl). destruct (tag_enum types _ _ _ _ _ Hv Hl Ha) as (vs & Hd).
  destruct (enum_inv _ _ _ _ _ _ _ Hl Hd Ha) as [_ H1]. destruct (enum_inv _ _ _ _ _ _ _ Hl Hd Hb) as [_ H2]. eapply enum_told; eauto.
Qed.

Theorem enc_told : forall v, told v.
Proof.
  induction v using value_ind'; intros cpt id w ea Ha Hb;
    try (refine (enum_case_told _ _ _ _ _ _ _ Ha Hb); [reflexivity|first [exact I|assumption] ]);
    pose proof (enc_same_tag _ _ _ _ _ _ _ _ Ha Hb) as Ht;
    destruct (enc_lookup _ _ _ _ _ Ha) as (t & Hl); destruct w; try discriminate Ht; clear Ht;
    cbn [Spec.enc] in Ha, Hb; rewrite Hl in Ha, Hb.
  - f_equal.
    destruct (classify t), (def_of t) as [[| | | | |x| |]|]; try destruct x; try discriminate; destruct cpt; try discriminate;
      repeat match goal with Hg : guard _ _ = Some _ |- _ => apply guard_ok in Hg; destruct Hg end; subst;
      try match goal with F : compact_enc ?a = compact_enc ?b, G : fits ?w ?a = true, K : fits ?w ?b = true |- _ =>
        apply (compact_free w a b [] [] G K); rewrite F; reflexivity end;
      try match goal with F : le_bytes (usize ?w) ?a = le_bytes (usize ?w) ?b, G : fits ?w ?a = true, K : fits ?w ?b = true |- _ => exact (fits_le w a b G K F) end;
      try match goal with F : le_bytes (usize (part_width ?k)) ?a = le_bytes _ ?b |- _ => apply (fits_le (part_width k) a b); [apply part_fits; assumption|apply part_fits; assumption|exact F] end;
      cbn [negb andb] in *;
      match goal with
      | F : le_bytes 4 ?a = le_bytes 4 ?b |- _ => apply (le_inj 4 a b); [apply scalar_small; assumption|apply scalar_small; assumption|exact F]
      | F : le_bytes 32 ?a = le_bytes 32 ?b |- _ => apply (big_inj a b); assumption
      end.
  - f_equal. destruct (def_of t) as [[| | | | |x| |]|]; try destruct x as [| | |wd| |wd|]; try discriminate.
    + apply guard_ok in Ha, Hb. destruct Ha as [Hc1 ->], Hb as [Hc2 Heq]. rewrite <- andb_assoc in Hc1, Hc2. apply andb_true_iff in Hc1, Hc2.
      exact (int_inj (usize wd) z z0 (width_pos wd) (proj2 Hc1) (proj2 Hc2) Heq).
    + apply guard_ok in Ha, Hb. destruct Ha as [Hc1 ->], Hb as [Hc2 Heq]. rewrite <- andb_assoc in Hc1, Hc2. apply andb_true_iff in Hc1, Hc2.
      exact (int_inj 32 z z0 ltac:(lia) (proj2 Hc1) (proj2 Hc2) Heq).
  - f_equal. destruct (def_of t) as [[| | | | |x| |]|]; try destruct x; try discriminate;
      repeat match goal with Hg : guard _ _ = Some _ |- _ => apply guard_ok in Hg; destruct Hg end; subst.
    destruct b, b0; congruence.
  - f_equal. destruct (def_of t) as [[| | | | |x| |]|]; try destruct x; try discriminate;
      repeat match goal with Hg : guard _ _ = Some _ |- _ => apply guard_ok in Hg; destruct Hg end; subst; bsplit.
    match goal with H : _ ++ _ = _ ++ _ |- _ => apply (compact_free U32) in H; [|assumption..]; destruct H as [_ H]; apply utf8s_inj in H; auto end.
  - f_equal. destruct (def_of t) as [[fs| | | | | | |]|]; try discriminate. destruct (cpt && _)%bool; [discriminate|].
    eapply (list_told (fun f => (cpt, f_ty f))); eauto.
  - f_equal. destruct (def_of t) as [[| | | |ids| | |]|]; try discriminate. destruct (cpt && _)%bool; [discriminate|].
    eapply (list_told (fun i => (cpt, i))); eauto.
  - f_equal. destruct (def_of t) as [[| |el| | | | |]|]; try discriminate. cbv zeta in Ha, Hb.
    match type of Ha with (if ?c then _ else _) = _ => destruct c eqn:Hc; [|discriminate] end.
    match type of Hb with (if ?c then _ else _) = _ => destruct c eqn:Hc2; [|discriminate] end.
    destruct (enc_all (enc false el) l) as [x|] eqn:Hx; [|discriminate]. destruct (enc_all (enc false el) l0) as [y|] eqn:Hy; [|discriminate].
    cbn [option_map] in *. injection Ha as <-. injection Hb as Heq. bsplit.
    apply (compact_free U32) in Heq; [|assumption..]. destruct Heq as [Hn ->]. eapply (all_told false el); eauto. lia.
  - f_equal. destruct (def_of t) as [[| | |len el| | | |]|]; try discriminate.
    match type of Ha with (if ?c then _ else _) = _ => destruct c eqn:Hc; [|discriminate] end.
    match type of Hb with (if ?c then _ else _) = _ => destruct c eqn:Hc2; [|discriminate] end.
    bsplit. eapply (all_told false el); eauto. lia.
  - f_equal. destruct (def_of t) as [[| | | | | |inner|]|]; try discriminate. destruct cpt; [discriminate|]. eapply IHv; eauto.
  - destruct (def_of t) as [[| | | | | | |store order]|]; try discriminate. destruct (bit_order_of types order); [|discriminate].
    destruct (bit_store types store) as [wd|]; [|discriminate]. cbv zeta in Ha, Hb.
    repeat match goal with Hg : guard _ _ = Some _ |- _ => apply guard_ok in Hg; destruct Hg end. subst. bsplit.
    match goal with H : _ ++ _ = _ ++ _ |- _ => apply (compact_free U32) in H; [|eapply bits_fit; eassumption..]; destruct H as [-> H] end.
    f_equal. apply (flat_inj wd); auto. lia.
  - destruct (classify t); try discriminate;
      repeat match goal with Hg : guard _ _ = Some _ |- _ => apply guard_ok in Hg; destruct Hg end; congruence.
  - f_equal. destruct (classify t); try discriminate;
      repeat match goal with Hg : guard _ _ = Some _ |- _ => apply guard_ok in Hg; destruct Hg end. subst. bsplit. apply era_inj; auto.
Qed.
End Unique.
