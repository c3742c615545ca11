(** Encodings of values of one type are no prefixes of each other, in any registry. *)
From Coq Require Import Lia ZifyBool ZifyNat ZifyN.
From Verif Require Import Base Compact Types Spec ProofBase ProofCompact ProofUtf8 ProofLeaf ProofRead ProofPeel ProofSpec ProofRel ProofMain ProofSee.
Local Open Scope list_scope.

Lemma app_same_length {A} (a b r s : list A) : List.length a = List.length b -> a ++ r = b ++ s -> a = b /\ r = s.
Proof.
  revert b. induction a as [|x a IH]; intros [|y b] Hl H; cbn in Hl; try lia; [auto|].
  cbn [app] in H. injection H as -> H. destruct (IH b ltac:(lia) H) as [-> ->]. auto.
Qed.

Lemma variant_sig_items types t v k : variant_sig types t v = Some k -> pallet_items types t v = None.
Proof.
  unfold variant_sig, pallet_items. destruct (classify t); try discriminate. destruct (v_fields v) as [|f [|]]; auto. intros _.
  destruct (lookup types (f_ty f)) as [inner|]; [|reflexivity]. destruct (t_def inner); reflexivity.
Qed.

Lemma compact_free w n m r s : fits w n = true -> fits w m = true -> compact_enc n ++ r = compact_enc m ++ s -> n = m /\ r = s.
Proof. intros Hn Hm H. pose proof (compact_enc_prefix w n m r s Hn Hm H) as ->. split; [reflexivity|]. exact (app_inv_head _ _ _ H). Qed.

(** What the encoding of an enum looks like. *)
Inductive enum_enc types t vs : value -> bytes -> Prop :=
| EE_never : vs = [] -> enum_enc types t vs VNever []
| EE_plain i var ws rest : by_index vs i = Some var -> (i < 256)%N -> variant_sig types t var = None -> pallet_items types t var = None ->
    enc_list (fun f => enc types false (f_ty f)) (v_fields var) ws = Some rest -> enum_enc types t vs (VEnum i ws) (i :: rest)
| EE_sig i var k l : by_index vs i = Some var -> (i < 256)%N -> variant_sig types t var = Some k -> is_bytesb l = true -> List.length l = raw_len k ->
    enum_enc types t vs (VSig i l) (i :: l)
| EE_item i var inner items j item ws rest : by_index vs i = Some var -> (i < 256)%N -> variant_sig types t var = None ->
    pallet_items types t var = Some (inner, items) -> by_index items j = Some item -> (j < 256)%N ->
    enc_list (fun f => enc types false (f_ty f)) (v_fields item) ws = Some rest -> enum_enc types t vs (VItem i j ws) (i :: j :: rest).

Lemma enum_inv types cpt id t vs v bs : lookup types id = Some t -> def_of t = Some (TVariant vs) -> enc types cpt id v = Some bs ->
  cpt = false /\ enum_enc types t vs v bs.
Proof.
  intros Hl Hd H.
  assert (Hns : forall var p, pallet_items types t var = Some p -> variant_sig types t var = None).
  { intros var p Hp. destruct (variant_sig types t var) eqn:Hs; [|reflexivity]. apply variant_sig_items in Hs. congruence. }
  destruct v; cbn [enc] in H; rewrite Hl, ?Hd in H.
  all: try (unfold def_of in Hd; destruct (classify t); discriminate).
  - destruct (by_index vs i) as [var|] eqn:Hi; [|discriminate]. destruct (variant_sig types t var) eqn:Hs; [discriminate|].
    destruct (pallet_items types t var) eqn:Hp; [discriminate|]. destruct (negb cpt && (i <? 256)%N)%bool eqn:Hc; [|discriminate].
    destruct (enc_list _ _ _) as [rest|] eqn:He; [|discriminate]. injection H as <-. split; [destruct cpt; [discriminate|reflexivity]|].
    eapply EE_plain; eauto. lia.
  - destruct vs; [|discriminate]. apply guard_ok in H. destruct H as [H ->]. split; [destruct cpt; [discriminate|reflexivity]|]. constructor. reflexivity.
  - destruct (by_index vs i) as [var|] eqn:Hi; [|discriminate]. destruct (variant_sig types t var) eqn:Hs; [|discriminate].
    apply guard_ok in H. destruct H as [H ->]. rewrite !andb_true_iff in H. destruct H as [[[H1 H2] H3] H4].
    split; [destruct cpt; [discriminate|reflexivity]|]. eapply EE_sig; eauto; [lia|]. apply Nat.eqb_eq, H4.
  - destruct (by_index vs i) as [var|] eqn:Hi; [|discriminate]. destruct (pallet_items types t var) as [[inner items]|] eqn:Hp; [|discriminate].
    destruct (by_index items j) as [item|] eqn:Hj; [|discriminate]. destruct (negb cpt && (i <? 256)%N && (j <? 256)%N)%bool eqn:Hc; [|discriminate].
    destruct (enc_list _ _ _) as [rest|] eqn:He; [|discriminate]. injection H as <-. split; [destruct cpt; [discriminate|reflexivity]|].
    eapply EE_item; eauto; lia.
Qed.

Section Prefix.
Variable types : list ty.
Local Notation enc := (enc types).

Definition prefix_free (v : value) : Prop := forall cpt id w a b r s,
  enc cpt id v = Some a -> enc cpt id w = Some b -> a ++ r = b ++ s -> a = b /\ r = s.

Lemma list_free {A} (f : A -> bool * N) : forall ids vs ws a b r s, Forall prefix_free vs ->
  enc_list (fun x => enc (fst (f x)) (snd (f x))) ids vs = Some a ->
  enc_list (fun x => enc (fst (f x)) (snd (f x))) ids ws = Some b -> a ++ r = b ++ s -> a = b /\ r = s.
Proof.
  induction ids as [|i ids IH]; intros vs ws a b r s Hf Ha Hb H.
  - apply enc_list_nil in Ha, Hb. destruct Ha as [_ ->], Hb as [_ ->]. auto.
  - apply enc_list_cons in Ha, Hb. destruct Ha as (v & vs' & a1 & a2 & -> & Ha1 & Ha2 & ->), Hb as (w & ws' & b1 & b2 & -> & Hb1 & Hb2 & ->).
    inversion Hf as [|? ? Hv Hvs]; subst. rewrite <- !app_assoc in H.
    destruct (Hv _ _ _ _ _ _ _ Ha1 Hb1 H) as [-> H2]. destruct (IH _ _ _ _ _ _ Hvs Ha2 Hb2 H2) as [-> ->]. auto.
Qed.

Lemma all_free c i : forall vs ws a b r s, Forall prefix_free vs -> List.length vs = List.length ws ->
  enc_all (enc c i) vs = Some a -> enc_all (enc c i) ws = Some b -> a ++ r = b ++ s -> a = b /\ r = s.
Proof.
  induction vs as [|v vs IH]; intros [|w ws] a b r s Hf Hl Ha Hb H; cbn in Hl; try lia; cbn [enc_all] in Ha, Hb; fold (enc_all (enc c i)) in Ha, Hb.
  - injection Ha as <-. injection Hb as <-. auto.
  - destruct (enc c i v) as [a1|] eqn:Ha1; [|discriminate]. destruct (enc_all (enc c i) vs) as [a2|] eqn:Ha2; [|discriminate]. injection Ha as <-.
    destruct (enc c i w) as [b1|] eqn:Hb1; [|discriminate]. destruct (enc_all (enc c i) ws) as [b2|] eqn:Hb2; [|discriminate]. injection Hb as <-.
    inversion Hf as [|? ? Hv Hvs]; subst. rewrite <- !app_assoc in H.
    destruct (Hv _ _ _ _ _ _ _ Ha1 Hb1 H) as [-> H2]. destruct (IH ws _ _ r s Hvs ltac:(lia) eq_refl Hb2 H2) as [-> ->]. auto.
Qed.

Lemma era_free e1 e2 r s : era_valid e1 = true -> era_valid e2 = true -> era_enc e1 ++ r = era_enc e2 ++ s -> era_enc e1 = era_enc e2 /\ r = s.
Proof.
  intros H1 H2 H. destruct (era_enc_shape e1 H1) as [[-> Hs1]|(b0 & b1 & Hs1 & Hn1 & _)], (era_enc_shape e2 H2) as [[-> Hs2]|(c0 & c1 & Hs2 & Hn2 & _)];
    rewrite ?Hs1, ?Hs2 in H |- *; (apply app_same_length; [reflexivity|exact H]) || (exfalso; cbn [app] in H; injection H as H _; lia).
Qed.

Lemma enum_free t vs v w a b r s : match v with VEnum _ l | VItem _ _ l => Forall prefix_free l | _ => True end ->
  enum_enc types t vs v a -> enum_enc types t vs w b -> a ++ r = b ++ s -> a = b /\ r = s.
Proof.
  assert (Hnil : forall i var, by_index [] i = Some var -> False) by discriminate.
  intros Hf H1 H2 H. destruct H1; destruct H2; subst; try (exfalso; eauto; fail); auto; cbn [app] in H.
  all: pose proof (f_equal (@hd N 0%N) H) as Hi; cbn [hd] in Hi; subst; apply (f_equal (@tl N)) in H; cbn [tl] in H.
  all: match goal with A : by_index ?l ?i = Some ?x, B : by_index ?l ?i = Some ?y |- _ => assert (y = x) by congruence; subst y; clear B end.
  all: try congruence.
  - match goal with A : enc_list _ _ ws = Some _, B : enc_list _ _ ws0 = Some _ |- _ => destruct (list_free (fun f => (false, f_ty f)) _ _ _ _ _ _ _ Hf A B H) as [-> ->] end. auto.
  - apply app_same_length in H; [destruct H as [-> ->]; auto|congruence].
  - pose proof (f_equal (@hd N 0%N) H) as Hi; cbn [hd] in Hi; subst; apply (f_equal (@tl N)) in H; cbn [tl] in H.
    match goal with A : pallet_items _ _ _ = Some _, B : pallet_items _ _ _ = Some _ |- _ => rewrite A in B; injection B as <- <- end.
    match goal with A : by_index items ?i = Some ?x, B : by_index items ?i = Some ?y |- _ => assert (y = x) by congruence; subst y; clear B end.
    match goal with A : enc_list _ _ ws = Some _, B : enc_list _ _ ws0 = Some _ |- _ => destruct (list_free (fun f => (false, f_ty f)) _ _ _ _ _ _ _ Hf A B H) as [-> ->] end. auto.
Qed.

Lemma tag_enum v t cpt id a : tagv v = 6%nat -> lookup types id = Some t -> enc cpt id v = Some a -> exists vs, def_of t = Some (TVariant vs).
Proof.
  intros Hv Hl H. destruct v; try discriminate Hv; cbn [Spec.enc] in H; rewrite Hl in H; destruct (def_of t) as [[]|]; try discriminate; eauto.
Qed.

Lemma enum_case v w cpt id a b r s : tagv v = 6%nat -> match v with VEnum _ l | VItem _ _ l => Forall prefix_free l | _ => True end ->
  enc cpt id v = Some a -> enc cpt id w = Some b -> a ++ r = b ++ s -> a = b /\ r = s.
Proof.
  intros Hv Hf Ha Hb H. destruct (enc_lookup _ _ _ _ _ Ha) as (t & Hl). destruct (tag_enum _ _ _ _ _ Hv Hl Ha) as (vs & Hd).
  destruct (enum_inv _ _ _ _ _ _ _ Hl Hd Ha) as [_ H1]. destruct (enum_inv _ _ _ _ _ _ _ Hl Hd Hb) as [_ H2]. eapply enum_free; eauto.
Qed.

Ltac bsplit := repeat match goal with Hh : (_ && _)%bool = true |- _ => apply andb_true_iff in Hh; destruct Hh end.
Ltac btrue := bsplit; assumption.

Lemma bits_fit n : (n <=? max_bits)%N = true -> fits U32 n = true.
Proof. unfold max_bits, fits. change (2 ^ 29 - 1)%N with 536870911%N. rewrite N.leb_le, N.ltb_lt. change (2 ^ (8 * N.of_nat (usize U32)))%N with 4294967296%N. lia. Qed.

Theorem enc_prefix_free : forall v, prefix_free v.
Proof.
  induction v using value_ind'; intros cpt id w ea eb r s Ha Hb Heq;
    try (refine (enum_case _ _ _ _ _ _ _ _ _ _ Ha Hb Heq); [reflexivity|first [exact I|assumption] ]);
    pose proof (enc_same_tag _ _ _ _ _ _ _ _ Ha Hb) as Ht;
    destruct (enc_lookup _ _ _ _ _ Ha) as (t & Hl); destruct w; try discriminate Ht; clear Ht;
    cbn [Spec.enc] in Ha, Hb; rewrite Hl in Ha, Hb.
  - assert (HL : forall k m, ea = le_bytes k n -> eb = le_bytes k m -> ea = eb /\ r = s).
    { intros k m -> ->. apply app_same_length; [rewrite !le_bytes_length; reflexivity|exact Heq]. }
    destruct (classify t), (def_of t) as [[| | | | |x| |]|]; try destruct x; try discriminate; destruct cpt; try discriminate;
      repeat match goal with Hg : guard _ _ = Some _ |- _ => apply guard_ok in Hg; destruct Hg end; try (eapply HL; eauto; fail);
      subst; match goal with F : fits ?w n = true, G : fits ?w _ = true |- _ => destruct (compact_free w _ _ _ _ F G Heq) as [-> ->]; auto end.
  - destruct (def_of t) as [[| | | | |x| |]|]; try destruct x; try discriminate;
      repeat match goal with Hg : guard _ _ = Some _ |- _ => apply guard_ok in Hg; destruct Hg as [_ ->] end;
      (apply app_same_length; [rewrite !le_bytes_length; reflexivity|exact Heq]).
  - destruct (def_of t) as [[| | | | |x| |]|]; try destruct x; try discriminate;
      repeat match goal with Hg : guard _ _ = Some _ |- _ => apply guard_ok in Hg; destruct Hg as [_ ->] end;
      (apply app_same_length; [reflexivity|exact Heq]).
  - destruct (def_of t) as [[| | | | |x| |]|]; try destruct x; try discriminate;
      repeat match goal with Hg : guard _ _ = Some _ |- _ => apply guard_ok in Hg; destruct Hg as [? ->] end.
    rewrite <- !app_assoc in Heq. apply (compact_free U32) in Heq; [|btrue..]. destruct Heq as [Hn Heq].
    apply app_same_length in Heq; [|lia]. destruct Heq as [-> ->]. auto.
  - destruct (def_of t) as [[fs| | | | | | |]|]; try discriminate. destruct (cpt && _)%bool; [discriminate|].
    eapply (list_free (fun f => (cpt, f_ty f))); eauto.
  - destruct (def_of t) as [[| | | |ids| | |]|]; try discriminate. destruct (cpt && _)%bool; [discriminate|].
    eapply (list_free (fun i => (cpt, i))); eauto.
  - destruct (def_of t) as [[| |el| | | | |]|]; try discriminate. cbv zeta in Ha, Hb.
    match type of Ha with (if ?c then _ else _) = _ => destruct c eqn:Hc; [|discriminate] end.
    match type of Hb with (if ?c then _ else _) = _ => destruct c eqn:Hc2; [|discriminate] end.
    destruct (enc_all (enc false el) l) as [x|] eqn:Hx; [|discriminate]. destruct (enc_all (enc false el) l0) as [y|] eqn:Hy; [|discriminate].
    cbn [option_map] in *. injection Ha as <-. injection Hb as <-. rewrite <- !app_assoc in Heq.
    apply (compact_free U32) in Heq; [|btrue..]. destruct Heq as [Hn Heq]. destruct (all_free false el l l0 x y r s) as [-> ->]; [assumption|lia|assumption..|rewrite Hn; auto].
  - destruct (def_of t) as [[| | |len el| | | |]|]; try discriminate.
    match type of Ha with (if ?c then _ else _) = _ => destruct c eqn:Hc; [|discriminate] end.
    match type of Hb with (if ?c then _ else _) = _ => destruct c eqn:Hc2; [|discriminate] end.
    destruct (all_free false el l l0 ea eb r s) as [-> ->]; [assumption|bsplit; lia|assumption..|auto].
  - destruct (def_of t) as [[| | | | | |inner|]|]; try discriminate. destruct cpt; [discriminate|]. eapply IHv; eauto.
  - destruct (def_of t) as [[| | | | | | |store order]|]; try discriminate. destruct (bit_order_of types order); [|discriminate].
    destruct (bit_store types store) as [wd|]; [|discriminate]. cbv zeta in Ha, Hb.
    repeat match goal with Hg : guard _ _ = Some _ |- _ => apply guard_ok in Hg; destruct Hg as [? ->] end.
    rewrite <- !app_assoc in Heq. apply (compact_free U32) in Heq; [|bsplit; eapply bits_fit; eassumption..]. destruct Heq as [-> Heq].
    apply app_same_length in Heq; [|rewrite !flat_le_bytes_length; bsplit; lia]. destruct Heq as [-> ->]. auto.
  - destruct (classify t); try discriminate;
      repeat match goal with Hg : guard _ _ = Some _ |- _ => apply guard_ok in Hg; destruct Hg as [? ->] end;
      (apply app_same_length; [bsplit; lia|exact Heq]).
  - destruct (classify t); try discriminate;
      repeat match goal with Hg : guard _ _ = Some _ |- _ => apply guard_ok in Hg; destruct Hg as [? ->] end.
    apply era_free; btrue.
Qed.
End Prefix.
