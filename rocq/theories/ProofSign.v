(** C21-C26: signable transactions. *)
From Coq Require Import Lia ZifyBool ZifyNat ZifyN.
From Verif Require Import Base Compact Types Indicators Decode Sign Spec ProofBase ProofCompact ProofTables ProofPeel
  ProofSpec SpecSource ProofSafe ProofSafe2 ProofFuel SpecTrack ProofTrack ProofIso Api ApiSign SpecSign ProofCor.
Local Open Scope list_scope.

(** *** C21 *)

Section Mark.
Context {ME : Type}.

Theorem mark_spec data : is_bytes data ->
  (exists n call rest, fits U32 n = true /\ data = compact_enc n ++ call ++ rest /\ N.of_nat (List.length call) = n /\
     @mark_data ME data = Ok (Marked (List.length (compact_enc n)) (List.length (compact_enc n ++ call)))) \/
  ((forall n call rest, fits U32 n = true -> data = compact_enc n ++ call ++ rest -> N.of_nat (List.length call) <> n) /\
   @mark_data ME data = Err CutSignable).
Proof.
  intros Hb. unfold mark_data, result, mark, bind, map_err, at_local, catch.
  destruct (compact_canonical unit U32 data 0 tt Hb) as [(n & post & Hs & Hf & -> & Hlen)|(Hno & x & -> & _)].
  - cbn [skipn] in Hs. rewrite Nat.add_0_l in *. unfold read_slice. cbn [rd slice_buffer]. unfold slice_rd.
    assert (Hdl : List.length data = (List.length (compact_enc n) + List.length post)%nat) by (rewrite Hs, app_length; reflexivity).
    destruct (List.length data <? List.length (compact_enc n))%nat eqn:H1; [lia|].
    destruct (N.of_nat (List.length data) <? N.of_nat (List.length (compact_enc n)) + n)%N eqn:H2.
    + right. split; [|reflexivity]. intros n' call rest Hf' Hd Hn. rewrite Hs in Hd.
      assert (Hnn : n' = n).
      { assert (Hd2 : compact_decode U32 (compact_enc n ++ post) = compact_decode U32 (compact_enc n' ++ call ++ rest)) by congruence.
        rewrite !compact_decode_enc in Hd2 by assumption. congruence. }
      rewrite Hnn in Hd. apply app_inv_head in Hd. subst post. rewrite app_length in Hdl. lia.
    + left. exists n, (firstn (N.to_nat n) post), (skipn (N.to_nat n) post).
      assert (Hcl : List.length (firstn (N.to_nat n) post) = N.to_nat n) by (rewrite firstn_length; lia).
      split; [exact Hf|]. split; [rewrite firstn_skipn; exact Hs|]. split; [lia|].
      unfold ret. cbn [fst]. rewrite app_length, Hcl. reflexivity.
  - right. split; [|reflexivity]. intros n call rest Hf Hd Hn. cbn [skipn] in Hno. rewrite (Hno _ _ Hd) in Hf. discriminate.
Qed.
End Mark.

(** *** The extensions *)

Section Ext.
Context {ME : Type}.

Lemma findings_app a b : findings (a ++ b) = findings a ++ findings b.
Proof. unfold findings. apply flat_map_app. Qed.
Lemma versions_app a b : versions (a ++ b) = versions a ++ versions b.
Proof. unfold versions. rewrite findings_app. apply flat_map_app. Qed.
Lemma genesis_app a b : genesis_hashes (a ++ b) = genesis_hashes a ++ genesis_hashes b.
Proof. unfold genesis_hashes. rewrite findings_app. apply flat_map_app. Qed.
Lemma blocks_app a b : block_hashes (a ++ b) = block_hashes a ++ block_hashes b.
Proof. unfold block_hashes. rewrite findings_app. apply flat_map_app. Qed.
Lemma eras_app a b : eras (a ++ b) = eras a ++ eras b.
Proof. unfold eras. rewrite findings_app. apply flat_map_app. Qed.

Definition opt_list {A} (o : option A) : list A := match o with Some a => [a] | None => [] end.

(** The collected values are those found so far. *)
Definition collects (c : Sign.collected) (l : list (ext pdata)) : Prop :=
  opt_list (co_version c) = map dec_string (versions l) /\ opt_list (co_genesis c) = genesis_hashes l /\
  opt_list (co_block c) = block_hashes l /\ opt_list (co_era c) = eras l.

Lemma collects_clean c l : collects c l -> no_repetition l.
Proof.
  intros (H1 & H2 & H3 & H4). unfold no_repetition. rewrite <- H2, <- H3, <- H4.
  apply (f_equal (@List.length string)) in H1. rewrite map_length in H1.
  destruct (co_version c), (co_genesis c), (co_block c), (co_era c); cbn [opt_list List.length] in *; lia.
Qed.

Definition step_of (c : Sign.collected) (x : ext pdata) : Sign.collected + ext_err :=
  match x_data x with
  | DComposite [f] => collected_update c (x_data (fd_data f))
  | DComposite _ => inl c
  | d => collected_update c d
  end.

Definition update_with (c : Sign.collected) (o : option finding) : Sign.collected + ext_err :=
  match o with
  | None => inl c
  | Some (FVersion v) => match co_version c with Some _ => inr SpecVersionTwice
     | None => inl (Sign.Collected (co_era c) (co_genesis c) (co_block c) (Some (dec_string v))) end
  | Some (FGenesis h) => match co_genesis c with Some _ => inr GenesisHashTwice
     | None => inl (Sign.Collected (co_era c) (Some h) (co_block c) (co_version c)) end
  | Some (FBlock h) => match co_block c with Some _ => inr BlockHashTwice
     | None => inl (Sign.Collected (co_era c) (co_genesis c) (Some h) (co_version c)) end
  | Some (FEra x) => match co_era c with Some _ => inr EraTwice
     | None => inl (Sign.Collected (Some x) (co_genesis c) (co_block c) (co_version c)) end
  end.

Lemma update_finding c d : collected_update c d = update_with c (finding_in d).
Proof. destruct d; try reflexivity; try (destruct s; reflexivity). destruct specialty; reflexivity. Qed.

Lemma step_finding c x : step_of c x = update_with c (finding_of x).
Proof.
  unfold step_of, finding_of. destruct (x_data x) eqn:Hx; try (rewrite update_finding; reflexivity).
  destruct fields as [|f [|f2 fs]]; try reflexivity. apply update_finding.
Qed.

Lemma collect_loop_cons c x l : collect_loop c (x :: l) =
  match step_of c x with inl c' => collect_loop c' l | inr e => inr e end.
Proof. reflexivity. Qed.

Lemma findings_one x : findings [x] = opt_list (finding_of x).
Proof. unfold findings, opt_list. cbn [flat_map]. destruct (finding_of x); reflexivity. Qed.

Lemma versions_one x : versions [x] = flat_map (fun f => match f with FVersion v => [v] | _ => [] end) (opt_list (finding_of x)).
Proof. unfold versions. rewrite findings_one. reflexivity. Qed.
Lemma genesis_one x : genesis_hashes [x] = flat_map (fun f => match f with FGenesis v => [v] | _ => [] end) (opt_list (finding_of x)).
Proof. unfold genesis_hashes. rewrite findings_one. reflexivity. Qed.
Lemma blocks_one x : block_hashes [x] = flat_map (fun f => match f with FBlock v => [v] | _ => [] end) (opt_list (finding_of x)).
Proof. unfold block_hashes. rewrite findings_one. reflexivity. Qed.
Lemma eras_one x : eras [x] = flat_map (fun f => match f with FEra v => [v] | _ => [] end) (opt_list (finding_of x)).
Proof. unfold eras. rewrite findings_one. reflexivity. Qed.

Lemma update_collects c l x : collects c l ->
  match update_with c (finding_of x) with
  | inl c' => collects c' (l ++ [x])
  | inr e => exists f, finding_of x = Some f /\ e = repetition_error f /\ ~ no_repetition (l ++ [x])
  end.
Proof.
  intros (H1 & H2 & H3 & H4). unfold collects, no_repetition. rewrite versions_app, genesis_app, blocks_app, eras_app.
  rewrite versions_one, genesis_one, blocks_one, eras_one.
  rewrite map_app, <- H1, <- H2, <- H3, <- H4.
  assert (Hv : List.length (versions l) = List.length (opt_list (co_version c))).
  { apply (f_equal (@List.length string)) in H1. rewrite map_length in H1. congruence. }
  destruct (finding_of x) as [[v|h|h|y]|]; cbn [update_with opt_list flat_map app map]; rewrite ?app_nil_r; auto.
  - destruct (co_version c); [|cbn; auto]. eexists. split; [reflexivity|]. split; [reflexivity|].
    rewrite !app_length, Hv. cbn [opt_list List.length]. lia.
  - destruct (co_genesis c); [|cbn; auto]. eexists. split; [reflexivity|]. split; [reflexivity|].
    rewrite !app_length. cbn [opt_list List.length]. lia.
  - destruct (co_block c); [|cbn; auto]. eexists. split; [reflexivity|]. split; [reflexivity|].
    rewrite !app_length. cbn [opt_list List.length]. lia.
  - destruct (co_era c); [|cbn; auto]. eexists. split; [reflexivity|]. split; [reflexivity|].
    rewrite !app_length. cbn [opt_list List.length]. lia.
Qed.

Lemma collect_spec l : forall c pre, collects c pre ->
  match collect_loop c l with
  | inl c' => collects c' (pre ++ l)
  | inr e => exists l1 x l2 f, l = l1 ++ x :: l2 /\ no_repetition (pre ++ l1) /\ finding_of x = Some f /\
      e = repetition_error f /\ ~ no_repetition (pre ++ l1 ++ [x])
  end.
Proof.
  induction l as [|x l IH]; intros c pre Hc; [cbn [collect_loop]; rewrite app_nil_r; exact Hc|].
  rewrite collect_loop_cons, step_finding. pose proof (update_collects c pre x Hc) as Hu.
  destruct (update_with c (finding_of x)) as [c'|e].
  - specialize (IH c' (pre ++ [x]) Hu). destruct (collect_loop c' l) as [c''|e].
    + rewrite <- app_assoc in IH. exact IH.
    + destruct IH as (l1 & y & l2 & f & -> & Hn & Hf & He & Hr). exists (x :: l1), y, l2, f.
      rewrite <- app_assoc in Hn. rewrite <- app_assoc in Hr. auto.
  - destruct Hu as (f & Hf & He & Hr). exists [], x, l, f. cbn [app]. rewrite app_nil_r.
    repeat split; auto; apply (collects_clean _ _ Hc).
Qed.

Lemma bytes_eqb_spec a b : bytes_eqb a b = true <-> a = b.
Proof.
  revert b; induction a as [|x a IH]; intros [|y b]; cbn [bytes_eqb]; split; intros H; try discriminate; auto.
  - apply andb_true_iff in H. destruct H as [H1 H2]. apply N.eqb_eq in H1. apply IH in H2. congruence.
  - injection H as -> ->. rewrite N.eqb_refl. apply IH. reflexivity.
Qed.

Lemma bytes_eqb_false a b : bytes_eqb a b = false -> a <> b.
Proof. intros H He. apply bytes_eqb_spec in He. congruence. Qed.

Theorem check_judged l v g : judged (ME := ME) l v g (check_extensions l v g).
Proof.
  unfold check_extensions. pose proof (collect_spec l collected_new []) as Hc.
  cbn [app] in Hc. specialize (Hc ltac:(repeat split; reflexivity)).
  destruct (collect_loop collected_new l) as [c|e].
  2: { destruct Hc as (l1 & x & l2 & f & -> & Hn & Hf & -> & Hr). eapply J_repetition; eauto. }
  pose proof (collects_clean _ _ Hc) as Hn. destruct Hc as (H1 & H2 & H3 & H4).
  destruct (co_version c) as [w|]; cbn [opt_list] in H1.
  2: { apply J_no_version; [exact Hn|]. destruct (versions l); [reflexivity|discriminate]. }
  destruct (versions l) as [|v0 [|]] eqn:Hv; try discriminate. cbn [map] in H1. injection H1 as ->.
  destruct (String.eqb_spec (dec_string v0) v) as [He|He]; cbn [negb].
  2: { apply J_wrong_version; auto. }
  destruct (co_genesis c) as [gh|]; cbn [opt_list] in H2.
  2: { apply J_no_genesis; auto; [congruence|]. intros v1 H. congruence. }
  assert (Hok : genesis_matches g gh -> judged (ME := ME) l v g (match co_era c, co_block c with
                    | Some Immortal, Some bl => if bytes_eqb gh bl then inl tt else inr ImmortalHashMismatch
                    | _, _ => inl tt end)).
  { intros Hg. destruct (co_era c) as [er|]; cbn [opt_list] in H4.
    2: { eapply J_accepted; eauto. intros Hx. congruence. }
    destruct er as [|x y]; [|eapply J_accepted; eauto; intros Hx; congruence].
    destruct (co_block c) as [bl|]; cbn [opt_list] in H3.
    2: { eapply J_accepted; eauto. intros _ h Hh. congruence. }
    destruct (bytes_eqb gh bl) eqn:Hb.
    - apply bytes_eqb_spec in Hb. eapply J_accepted; eauto. intros _ h Hh. congruence.
    - apply bytes_eqb_false in Hb. eapply J_immortal; eauto. intros Hi. apply Hb. symmetry. apply Hi; congruence. }
  destruct g as [g'|]; [|apply Hok; exact I].
  destruct (bytes_eqb gh g') eqn:Hb.
  - apply bytes_eqb_spec in Hb. apply Hok. exact Hb.
  - apply bytes_eqb_false in Hb. eapply J_wrong_genesis; eauto.
Qed.

Lemma no_rep_prefix a b : no_repetition (a ++ b) -> no_repetition a.
Proof.
  unfold no_repetition. rewrite versions_app, genesis_app, blocks_app, eras_app, !app_length. lia.
Qed.

Lemma first_unique (a : list (ext pdata)) : forall x b a' x' b', a ++ x :: b = a' ++ x' :: b' ->
  no_repetition a -> no_repetition a' -> ~ no_repetition (a ++ [x]) -> ~ no_repetition (a' ++ [x']) -> a = a' /\ x = x'.
Proof.
  intros x b a' x' b' He Ha Ha' Hx Hx'.
  destruct (Nat.lt_trichotomy (List.length a) (List.length a')) as [Hl|[Hl|Hl]].
  - exfalso. apply Hx. apply no_rep_prefix with (b := skipn (S (List.length a)) a').
    assert (Hs : a' = (a ++ [x]) ++ skipn (S (List.length a)) a').
    { assert (Hf : firstn (S (List.length a)) a' = a ++ [x]).
      { assert (H1 : firstn (S (List.length a)) (a' ++ x' :: b') = a ++ [x]).
        { rewrite <- He. change (a ++ x :: b) with (a ++ [x] ++ b). rewrite app_assoc.
          rewrite firstn_app. rewrite firstn_all2 by (rewrite app_length; cbn; lia).
          rewrite app_length. cbn [List.length]. replace (S (List.length a) - (List.length a + 1))%nat with 0%nat by lia.
          cbn [firstn]. apply app_nil_r. }
        rewrite firstn_app in H1. replace (S (List.length a) - List.length a')%nat with 0%nat in H1 by lia.
        cbn [firstn] in H1. rewrite app_nil_r in H1. exact H1. }
      rewrite <- Hf. symmetry. apply firstn_skipn. }
    rewrite <- Hs. exact Ha'.
  - assert (H : a = a' /\ x :: b = x' :: b').
    { clear -He Hl. revert a' He Hl. induction a as [|y a IH]; intros [|y' a'] He Hl; try discriminate; [auto|].
      cbn [app] in He. injection He as <- He. cbn [List.length] in Hl. destruct (IH a' He) as [-> ->]; [lia|]. auto. }
    destruct H as [-> H]. injection H as -> _. auto.
  - exfalso. apply Hx'. apply no_rep_prefix with (b := skipn (S (List.length a')) a).
    assert (Hs : a = (a' ++ [x']) ++ skipn (S (List.length a')) a).
    { assert (Hf : firstn (S (List.length a')) a = a' ++ [x']).
      { assert (H1 : firstn (S (List.length a')) (a ++ x :: b) = a' ++ [x']).
        { rewrite He. change (a' ++ x' :: b') with (a' ++ [x'] ++ b'). rewrite app_assoc.
          rewrite firstn_app. rewrite firstn_all2 by (rewrite app_length; cbn; lia).
          rewrite app_length. cbn [List.length]. replace (S (List.length a') - (List.length a' + 1))%nat with 0%nat by lia.
          cbn [firstn]. apply app_nil_r. }
        rewrite firstn_app in H1. replace (S (List.length a') - List.length a)%nat with 0%nat in H1 by lia.
        cbn [firstn] in H1. rewrite app_nil_r in H1. exact H1. }
      rewrite <- Hf. symmetry. apply firstn_skipn. }
    rewrite <- Hs. exact Ha.
Qed.

Theorem judged_unique l v g r1 r2 : judged (ME := ME) l v g r1 -> judged (ME := ME) l v g r2 -> r1 = r2.
Proof.
  assert (Hrep : forall pre x post, l = pre ++ x :: post -> ~ no_repetition (pre ++ [x]) -> ~ no_repetition l).
  { intros pre x post -> H Hn. apply H. apply no_rep_prefix with (b := post). rewrite <- app_assoc. exact Hn. }
  intros H1 H2.
  destruct H1, H2; try congruence; try (exfalso; eapply Hrep; eauto; fail); try (exfalso; firstorder congruence; fail).
  { subst l. destruct (first_unique _ _ _ _ _ _ H2) as [<- <-]; auto. congruence. }
  all: exfalso; unfold genesis_matches in *; subst; congruence.
Qed.
End Ext.

(** *** Decoding the extensions *)

Section Outcome.
Context {ME : Type}.
Variable c : chain ME.
Local Notation types := (ch_types c).

Lemma hint_from_ext_spec i : hint_from_ext i = extension_hint i.
Proof.
  unfold hint_from_ext, extension_hint, extension_table. cbn [find fst].
  repeat match goal with |- (if String.eqb i ?s then _ else _) = _ =>
    rewrite (String.eqb_sym i s); destruct (String.eqb s i); [reflexivity|] end. reflexivity.
Qed.

Lemma ext_hinted data id i p e : decode_with_type (slice_buffer data) (portable types) (Symbol id) (from_ext_meta i) p e =
  (fst (decode_hinted (extension_hint i) types data id p), snd (decode_hinted (extension_hint i) types data id p), tt).
Proof.
  destruct e. unfold decode_hinted, from_ext_meta. rewrite hint_from_ext_spec.
  destruct (decode_with_type _ _ _ _ _ _) as [[o q] []]. reflexivity.
Qed.

Lemma loop_cons data i id l p : extensions_loop (slice_buffer data) (portable types) ((i, id) :: l) p tt =
  match decode_hinted (extension_hint i) types data id p with
  | (Ok x, q) => (do tl <- extensions_loop (slice_buffer data) (portable types) l; ret (x :: tl)) q tt
  | (Err x, q) => (Err x, q, tt)
  | (Panic, q) => (Panic, q, tt)
  | (OutOfFuel, q) => (OutOfFuel, q, tt)
  end.
Proof.
  cbn [extensions_loop]. unfold bind at 1. rewrite ext_hinted.
  destruct (decode_hinted (extension_hint i) types data id p) as [[x|x| |] q]; reflexivity.
Qed.

Lemma loop_in_turn data l : forall p,
  (exists xs q, extensions_loop (slice_buffer data) (portable types) l p tt = (Ok xs, q, tt) /\
     read_in_turn types data l p xs q) \/
  (exists l1 i id l2 xs q x q', l = l1 ++ (i, id) :: l2 /\ read_in_turn types data l1 p xs q /\
     decode_hinted (extension_hint i) types data id q = (Err x, q') /\
     fst (fst (extensions_loop (slice_buffer data) (portable types) l p tt)) = Err x).
Proof.
  induction l as [|[i id] l IH]; intros p.
  - left. exists [], p. split; [reflexivity|constructor].
  - rewrite loop_cons. pose proof (hinted_returns types (extension_hint i) data id p) as Hr.
    destruct (decode_hinted (extension_hint i) types data id p) as [o p'] eqn:Hd. cbn [fst snd] in *.
    destruct Hr as [(x & ->)|(x & ->)].
    + destruct (IH p') as [(xs & q & Hl & Hrd)|(l1 & i2 & id2 & l2 & xs & q & x2 & q2 & -> & Hrd & Hd2 & Hl)].
      * left. exists (x :: xs), q. split; [unfold bind; rewrite Hl; reflexivity|]. econstructor; eauto.
      * right. exists ((i, id) :: l1), i2, id2, l2, (x :: xs), q, x2, q2. repeat split; auto; [econstructor; eauto|].
        unfold bind. destruct (extensions_loop _ _ _ p' tt) as [[o3 q3] e3]. cbn [fst] in Hl. subst o3. reflexivity.
    + right. exists [], i, id, l, [], p, x, p'. repeat split; auto. constructor.
Qed.

Lemma turn_unique data l : forall p xs q xs' q', read_in_turn types data l p xs q -> read_in_turn types data l p xs' q' ->
  xs = xs' /\ q = q'.
Proof.
  induction l as [|[i id] l IH]; intros p xs q xs' q' H1 H2; inversion H1; subst; inversion H2; subst; auto.
  match goal with A : decode_hinted _ _ _ _ _ = (Ok ?x, _), B : decode_hinted _ _ _ _ _ = (Ok ?y, _) |- _ =>
    rewrite A in B; injection B as <- <- end.
  match goal with A : read_in_turn _ _ l _ _ _, B : read_in_turn _ _ l _ _ _ |- _ =>
    destruct (IH _ _ _ _ _ A B) as [<- <-] end. auto.
Qed.

Lemma turn_app data l1 l2 p xs q : read_in_turn types data (l1 ++ l2) p xs q ->
  exists xs1 xs2 m, xs = xs1 ++ xs2 /\ read_in_turn types data l1 p xs1 m /\ read_in_turn types data l2 m xs2 q.
Proof.
  revert p xs. induction l1 as [|[i id] l1 IH]; intros p xs H.
  - exists [], xs, p. repeat split; auto. constructor.
  - cbn [app] in H. inversion H; subst.
    match goal with A : read_in_turn _ _ (l1 ++ l2) _ _ _ |- _ => destruct (IH _ _ A) as (xs1 & xs2 & m & -> & Ha & Hb) end.
    exists (x :: xs1), xs2, m. repeat split; auto. econstructor; eauto.
Qed.

(** The failure is at one place only. *)
Lemma turn_fails data l l1 i id l2 p xs q x q' xs' q'' : l = l1 ++ (i, id) :: l2 ->
  read_in_turn types data l1 p xs q -> decode_hinted (extension_hint i) types data id q = (Err x, q') ->
  read_in_turn types data l p xs' q'' -> False.
Proof.
  intros -> H1 Hd H2. apply turn_app in H2. destruct H2 as (a & b & m & -> & Ha & Hb).
  destruct (turn_unique _ _ _ _ _ _ _ H1 Ha) as [<- <-]. inversion Hb; subst.
  match goal with A : decode_hinted _ _ _ _ _ = (Ok _, _) |- _ => rewrite A in Hd; discriminate end.
Qed.

Lemma failure_unique data l1 : forall l1' p i id l2 i' id' l2' xs q x r xs' q' x' r',
  l1 ++ (i, id) :: l2 = l1' ++ (i', id') :: l2' ->
  read_in_turn types data l1 p xs q -> decode_hinted (extension_hint i) types data id q = (Err x, r) ->
  read_in_turn types data l1' p xs' q' -> decode_hinted (extension_hint i') types data id' q' = (Err x', r') -> x = x'.
Proof.
  induction l1 as [|[j jd] l1 IH]; intros [|[j' jd'] l1'] p i id l2 i' id' l2' xs q x r xs' q' x' r' He H1 Hd1 H2 Hd2;
    cbn [app] in He; injection He as Hj Hjd He; subst.
  - inversion H1; inversion H2; subst. congruence.
  - inversion H1; inversion H2; subst. congruence.
  - inversion H1; inversion H2; subst. congruence.
  - inversion H1; inversion H2; subst.
    match goal with A : decode_hinted _ _ _ _ _ = (Ok ?a, _), B : decode_hinted _ _ _ _ _ = (Ok ?b, _) |- _ =>
      rewrite A in B; injection B as <- <- end. eapply IH; eauto.
Qed.

Lemma extensions_outcome g data mk : extension_outcome c g data (extensions_start mk) (extensions_of c g data mk).
Proof.
  unfold extensions_of, result, decode_extensions, at_local. unfold bind at 1. unfold decode_extensions_unmarked.
  cbn [chain_metadata m_types m_signed_extensions m_spec_name_version].
  destruct (ch_extensions c) as [l|x] eqn:He.
  2: { cbn. apply EO_metadata. exact He. }
  unfold bind at 1. cbn [lift map_err ret]. unfold map_err at 1, ret at 1. unfold bind at 1, map_err at 1.
  change (extension_types l) with (extension_sequence l).
  destruct (loop_in_turn data (extension_sequence l) (extensions_start mk))
    as [(xs & q & -> & Hr)|(l1 & i & id & l2 & xs & q & x & q' & Hs & Hr & Hd & Ho)].
  2: { destruct (extensions_loop _ _ _ _ _) as [[o q2] e2]. cbn [fst] in Ho. subst o. cbn. eapply EO_undecodable; eauto. }
  unfold bind at 1, get_pos. cbn [total_len slice_buffer].
  destruct (Nat.eqb_spec q (List.length data)) as [-> |Hq]; cbn [negb].
  2: { cbn. eapply EO_unused; eauto. }
  destruct (ch_spec c) as [nv|x] eqn:Hn.
  2: { cbn. eapply EO_no_version; eauto. }
  unfold bind, map_err, lift, ret, fail. pose proof (@check_judged ME xs (printed_spec_version nv) g) as Hj.
  destruct (check_extensions xs (printed_spec_version nv) g) as [[]|x]; cbn [fst].
  - eapply EO_accepted; eauto.
  - eapply EO_rejected; eauto.
Qed.

Theorem extension_outcome_unique g data start o1 o2 :
  extension_outcome c g data start o1 -> extension_outcome c g data start o2 -> o1 = o2.
Proof.
  assert (Hsame : forall l l' xs q xs' q', ch_extensions c = inl l -> ch_extensions c = inl l' ->
     read_in_turn types data (extension_sequence l) start xs q -> read_in_turn types data (extension_sequence l') start xs' q' ->
     l = l' /\ xs = xs' /\ q = q').
  { intros l l' xs q xs' q' H1 H2 Ha Hb. assert (l = l') by congruence. subst l'.
    destruct (turn_unique _ _ _ _ _ _ _ Ha Hb). auto. }
  assert (Hfail : forall l l' l1 i id l2 xs q x r xs' q', ch_extensions c = inl l -> ch_extensions c = inl l' ->
     extension_sequence l = l1 ++ (i, id) :: l2 -> read_in_turn types data l1 start xs q ->
     decode_hinted (extension_hint i) types data id q = (Err x, r) ->
     read_in_turn types data (extension_sequence l') start xs' q' -> False).
  { intros l l' l1 i id l2 xs q x r xs' q' H1 H2 Hs Ha Hd Hb. assert (l = l') by congruence. subst l'.
    eapply turn_fails; eauto. }
  intros H1 H2. destruct H1, H2; try congruence.
  all: try match goal with
    A : extension_sequence ?l = ?l1 ++ (_, _) :: _, C : read_in_turn _ _ ?l1 _ _ ?q,
    D : decode_hinted _ _ _ _ ?q = (Err _, _), F : read_in_turn _ _ (extension_sequence ?l') _ _ _ |- _ =>
      exfalso; refine (Hfail _ _ _ _ _ _ _ _ _ _ _ _ _ _ A C D F); assumption end.
  all: try match goal with
    A : ch_extensions c = inl ?l, B : ch_extensions c = inl ?l',
    C : read_in_turn _ _ (extension_sequence ?l) _ _ _,
    D : read_in_turn _ _ (extension_sequence ?l') _ _ _ |- _ =>
      destruct (Hsame _ _ _ _ _ _ A B C D) as (<- & <- & ?) end; try congruence.
  { assert (l = l0) by congruence. subst l0.
    f_equal. f_equal. rewrite H0 in H4. exact (failure_unique _ _ _ _ _ _ _ _ _ _ _ _ _ _ _ _ _ _ H4 H1 H3 H5 H6). }
  all: match goal with A : judged _ ?u _ _, B : judged _ ?w _ _ |- _ =>
    assert (Hw : u = w) by congruence; rewrite Hw in A; pose proof (judged_unique _ _ _ _ _ A B); congruence end.
Qed.

Lemma outcome_match g data start xs : extension_outcome c g data start (Ok xs) -> extensions_match c g data start xs.
Proof.
  intros H. inversion H; subst. match goal with A : judged _ _ _ _ |- _ => inversion A; subst end.
  exists l, nv, v, g0. unfold no_repetition in *. repeat split; auto; try tauto.
Qed.
End Outcome.
