(** C44: encodings bound values. *)
From Coq Require Import Lia ZifyBool ZifyNat ZifyN Relations.
From Verif Require Import Base Compact Types Indicators Decode Spec ProofBase ProofCompact
  ProofUtf8 ProofLeaf ProofRead ProofTables ProofPeel ProofSpec ProofRel SpecWf ProofWf SpecSize Api ProofCor ProofSize.
Local Open Scope list_scope.

Definition total (vs : list value) : nat := list_sum (map vsize vs).

(** What is known about a value and its encoding: [g] bounds it if the encoding is empty,
    otherwise [h] and [big] per byte after the first one. *)
Definition meets (big g h : nat) (v : value) (b : bytes) : Prop :=
  (b = [] -> vsize v <= g)%nat /\ (b <> [] -> vsize v + big <= h + big * List.length b)%nat.

Definition meets_all (big g h : nat) (vs : list value) (b : bytes) : Prop :=
  (b = [] -> total vs <= List.length vs * g)%nat /\
  (b <> [] -> total vs + big <= List.length vs * h + big * List.length b)%nat /\
  (total vs <= List.length vs * g + big * List.length b)%nat.

Lemma meets_cons big g h v vs b bs : (g <= h <= big)%nat -> meets big g h v b -> meets_all big g h vs bs ->
  meets_all big g h (v :: vs) (b ++ bs).
Proof.
  intros [Hgh Hhb] [H1 H2] (H3 & H4 & H5). unfold meets_all, total in *.
  cbn [map list_sum fold_right List.length]. fold (list_sum (map vsize vs)). rewrite app_length.
  destruct b as [|x b].
  - cbn [app List.length] in *. specialize (H1 eq_refl). clear H2. repeat split.
    + intros He. specialize (H3 He). lia.
    + intros He. specialize (H4 He). nia.
    + nia.
  - specialize (H2 ltac:(discriminate)). clear H1. cbn [app List.length] in *. repeat split.
    + discriminate.
    + intros _. destruct bs as [|y bs].
      * specialize (H3 eq_refl). cbn [List.length]. nia.
      * specialize (H4 ltac:(discriminate)). cbn [List.length] in *. nia.
    + nia.
Qed.

Lemma enc_list_meets {A} (f : A -> value -> option bytes) big g h ids vs bs : (g <= h <= big)%nat ->
  enc_list f ids vs = Some bs ->
  (forall i v b, In i ids -> In v vs -> f i v = Some b -> meets big g h v b) ->
  meets_all big g h vs bs /\ List.length vs = List.length ids.
Proof.
  intros Hg. revert ids bs; induction vs as [|v vs IH]; intros [|i ids] bs; cbn [enc_list]; try discriminate.
  - intros H _; injection H as <-. split; [|reflexivity]. unfold meets_all, total. cbn. repeat split; try lia; congruence.
  - destruct (f i v) as [x|] eqn:Hf; [|discriminate]. fold (enc_list f).
    destruct (enc_list f ids vs) as [xs|] eqn:Hx; [|discriminate]. intros H Hm; injection H as <-.
    destruct (IH ids xs Hx) as [Ha Hl].
    { intros i0 v0 b0 Hi Hv. apply Hm; right; assumption. }
    split; [|cbn; congruence]. apply meets_cons; auto. eapply Hm; [left; reflexivity|left; reflexivity|exact Hf].
Qed.

Lemma enc_all_meets (f : value -> option bytes) big g h vs bs : (g <= h <= big)%nat ->
  enc_all f vs = Some bs ->
  (forall v b, In v vs -> f v = Some b -> meets big g h v b) -> meets_all big g h vs bs.
Proof.
  intros Hg. revert bs; induction vs as [|v vs IH]; intros bs; cbn [enc_all].
  - intros H _; injection H as <-. unfold meets_all, total. cbn. repeat split; try lia; congruence.
  - destruct (f v) as [x|] eqn:Hf; [|discriminate]. fold (enc_all f).
    destruct (enc_all f vs) as [xs|] eqn:Hx; [|discriminate]. intros H Hm; injection H as <-.
    apply meets_cons; auto.
    + eapply Hm; [left; reflexivity|exact Hf].
    + apply (IH xs eq_refl). intros v0 b0 Hv. apply Hm; right; assumption.
Qed.

(** Elements with non-empty encodings. *)
Lemma enc_all_nonempty (f : value -> option bytes) big g h vs bs : (h <= big)%nat ->
  enc_all f vs = Some bs ->
  (forall v b, In v vs -> f v = Some b -> b <> [] /\ meets big g h v b) -> (total vs <= big * List.length bs)%nat.
Proof.
  intros Hg. revert bs; induction vs as [|v vs IH]; intros bs; cbn [enc_all].
  - intros H _; injection H as <-. unfold total. cbn. lia.
  - destruct (f v) as [x|] eqn:Hf; [|discriminate]. fold (enc_all f).
    destruct (enc_all f vs) as [xs|] eqn:Hx; [|discriminate]. intros H Hm; injection H as <-.
    destruct (Hm v x (or_introl eq_refl) Hf) as (Hne & _ & H2). specialize (H2 Hne).
    specialize (IH xs eq_refl (fun v b Hin => Hm v b (or_intror Hin))).
    unfold total in *. cbn [map list_sum fold_right]. fold (list_sum (map vsize vs)). rewrite app_length.
    nia.
Qed.

Lemma NoDup_app_snoc {A} (l : list A) x : NoDup l -> ~ In x l -> NoDup (l ++ [x]).
Proof.
  intros Hn Hx. apply NoDup_rev in Hn. rewrite <- (rev_involutive (l ++ [x])). apply NoDup_rev.
  rewrite rev_app_distr. cbn [rev app]. constructor; [|exact Hn]. rewrite <- in_rev. exact Hx.
Qed.

Section Bound.
Variable types : list ty.
Local Notation enc := (enc types).
Local Notation lookup := (lookup types).
Local Notation contains := (contains types).
Hypothesis Hac : acyclic types.
Hypothesis Hne : no_empty_elements types.

Let w := widest types.
Let n := List.length types.
Let step (m : nat) : nat := 1 + w * m.
Definition gk (k : nat) : nat := Nat.iter k step 1.
Definition hk (k : nat) : nat := Nat.iter k step (gk (S n)).
Definition big : nat := 8 + hk n.

Lemma w_pos : (1 <= w)%nat.
Proof. unfold w, widest. lia. Qed.

Lemma gk_S k : gk (S k) = (1 + w * gk k)%nat.
Proof. reflexivity. Qed.
Lemma hk_S k : hk (S k) = (1 + w * hk k)%nat.
Proof. reflexivity. Qed.

Lemma gk_mono a b : (a <= b)%nat -> (gk a <= gk b)%nat.
Proof. pose proof w_pos. induction 1; [lia|]. rewrite gk_S. nia. Qed.
Lemma hk_mono a b : (a <= b)%nat -> (hk a <= hk b)%nat.
Proof. pose proof w_pos. induction 1; [lia|]. rewrite hk_S. nia. Qed.

Lemma gk_pos k : (1 <= gk k)%nat.
Proof. induction k; [reflexivity|]. rewrite gk_S. lia. Qed.

Lemma hk_enum k : (1 + w * gk n <= hk k)%nat.
Proof. pose proof (hk_mono 0 k ltac:(lia)) as H. change (hk 0) with (gk (S n)) in H. rewrite gk_S in H. exact H. Qed.

Lemma gk_hk k : (k <= n)%nat -> (gk k <= hk k)%nat.
Proof.
  intros H. pose proof (hk_enum k). pose proof (gk_mono k n H). pose proof w_pos. nia.
Qed.

Lemma hk_big k : (k <= n)%nat -> (hk k <= big)%nat.
Proof. intros H. unfold big. pose proof (hk_mono k n H). lia. Qed.

(** Paths of containing types. *)
Definition path (cyc : list N) (id : N) : Prop :=
  above types cyc id /\ In id cyc /\ NoDup cyc /\ forall a, In a cyc -> (a < N.of_nat n)%N.

Lemma lookup_lt id t : lookup id = Some t -> (id < N.of_nat n)%N.
Proof. unfold Types.lookup. fold n. destruct (N.ltb_spec id (N.of_nat n)); [auto|discriminate]. Qed.

Lemma path_self id t : lookup id = Some t -> path [id] id.
Proof.
  intros Hl. split; [apply above_self|]. split; [left; reflexivity|]. split; [constructor; [intros []|constructor]|].
  intros a [<-|[]]. eapply lookup_lt; eauto.
Qed.

Lemma path_len cyc id : path cyc id -> (List.length cyc <= n)%nat.
Proof.
  intros (_ & _ & Hn & Hb). rewrite <- (seq_length n 0), <- (map_length N.of_nat).
  apply NoDup_incl_length; [exact Hn|]. intros a Ha. apply in_map_iff. exists (N.to_nat a).
  split; [lia|]. apply in_seq. specialize (Hb a Ha). lia.
Qed.

Lemma path_step cyc id j t : path cyc id -> contains id j -> lookup j = Some t -> path (cyc ++ [j]) j.
Proof.
  intros (Ha & Hi & Hn & Hb) Hc Hl.
  pose proof (above_step types _ _ _ Ha Hc) as Hs. split; [apply strictly_above; exact Hs|].
  split; [apply in_or_app; right; left; reflexivity|]. split.
  - pose proof (strictly_fresh types Hac _ _ Hs) as Hf. apply fresh_spec in Hf.
    apply NoDup_app_snoc; assumption.
  - intros a Hin. apply in_app_or in Hin. destruct Hin as [Hin|[<-|[]]]; [auto|eapply lookup_lt; eauto].
Qed.

Lemma path_room cyc id j t : path cyc id -> contains id j -> lookup j = Some t ->
  exists k, (n - List.length cyc = S k /\ n - List.length (cyc ++ [j]) = k)%nat.
Proof.
  intros Hp Hc Hl. pose proof (path_len _ _ (path_step _ _ _ _ Hp Hc Hl)) as H.
  rewrite app_length in *. cbn [List.length] in *. exists (n - (List.length cyc + 1))%nat. lia.
Qed.

Lemma width_le id t : lookup id = Some t -> (S (width t) <= w)%nat.
Proof.
  intros Hl. unfold w, widest. apply le_n_S. 
  assert (Hin : In (width t) (map width types)).
  { apply in_map. unfold Types.lookup in Hl. destruct (N.ltb _ _); [|discriminate]. eapply nth_error_In; eauto. }
  pose proof (proj1 (list_max_le (map width types) (list_max (map width types))) (le_n _)) as Hf.
  rewrite Forall_forall in Hf. apply Hf. exact Hin.
Qed.

Lemma width_variant id t vs i var : lookup id = Some t -> t_def t = TVariant vs -> by_index vs i = Some var ->
  (List.length (v_fields var) <= w)%nat.
Proof.
  intros Hl Hd Hi. pose proof (width_le _ _ Hl) as Hw. unfold width in Hw. rewrite Hd in Hw.
  apply find_some in Hi. destruct Hi as [Hi _].
  assert (Hin : In (List.length (v_fields var)) (map (fun v => List.length (v_fields v)) vs))
    by (apply (in_map (fun v => List.length (v_fields v))); exact Hi).
  pose proof (proj1 (list_max_le (map (fun v => List.length (v_fields v)) vs) _) (le_n _)) as Hf.
  rewrite Forall_forall in Hf. specialize (Hf _ Hin). lia.
Qed.

(** The goal for one value. *)
Definition good (v : value) : Prop := forall cpt id bs cyc, enc cpt id v = Some bs -> path cyc id ->
  meets big (gk (n - List.length cyc)) (hk (n - List.length cyc)) v bs.

Lemma ordered k : (k <= n)%nat -> (gk k <= hk k <= big)%nat.
Proof. intros H. split; [apply gk_hk|apply hk_big]; exact H. Qed.

(** Something of the same size as its bytes. *)
Lemma leaf_meets k v b : (k <= n)%nat -> b <> [] -> (vsize v <= 1 + 8 * (List.length b - 1))%nat ->
  meets big (gk k) (hk k) v b.
Proof.
  intros Hk Hb Hs. split; [congruence|]. intros _. pose proof (hk_enum k). unfold big.
  assert (1 <= List.length b)%nat by (destruct b; [congruence|cbn; lia]). nia.
Qed.

(** From members one containment below, or none at all. *)
Lemma members_meet cyc id vs bs v :
  path cyc id -> vsize v = S (total vs) -> (List.length vs <= w)%nat ->
  (vs = [] /\ bs = [] \/ exists k, n - List.length cyc = S k /\ meets_all big (gk k) (hk k) vs bs)%nat ->
  meets big (gk (n - List.length cyc)) (hk (n - List.length cyc)) v bs.
Proof.
  intros Hp Hv Hw [[-> ->]|(k & Hk & H1 & H2 & _)].
  - split; [intros _; rewrite Hv; unfold total; cbn; apply gk_pos|congruence].
  - rewrite Hk. rewrite gk_S, hk_S. split.
    + intros He. specialize (H1 He). rewrite Hv. nia.
    + intros He. specialize (H2 He). rewrite Hv. nia.
Qed.

Lemma fields_meet cyc id t (cpt : bool) fs vs bs v :
  (forall f, In f fs -> contains id (f_ty f)) ->
  (forall v, In v vs -> good v) -> path cyc id -> lookup id = Some t ->
  enc_list (fun f => enc cpt (f_ty f)) fs vs = Some bs -> vsize v = S (total vs) -> (List.length fs <= w)%nat ->
  meets big (gk (n - List.length cyc)) (hk (n - List.length cyc)) v bs.
Proof.
  intros Hc IH Hp Hl He Hv Hw.
  destruct fs as [|f0 fs].
  - destruct vs; [|discriminate]. cbn in He. injection He as <-.
    apply (members_meet cyc id [] [] v); cbn [List.length]; auto; lia.
  - destruct vs as [|v0 vs]; [discriminate|].
    assert (Hroom : exists k, (n - List.length cyc = S k)%nat).
    { cbn [enc_list] in He. destruct (enc cpt (f_ty f0) v0) as [b0|] eqn:Hb0; [|discriminate].
      destruct (enc_lookup _ _ _ _ _ Hb0) as (t0 & Hl0).
      destruct (path_room _ _ _ _ Hp (Hc f0 (or_introl eq_refl)) Hl0) as (k & Hk & _). eauto. }
    destruct Hroom as (k & Hk).
    destruct (enc_list_meets _ big (gk k) (hk k) _ _ _ (ordered k ltac:(lia)) He) as [Hm Hlen].
    { intros f u b Hf Hu Hb. cbv beta in Hb. destruct (enc_lookup _ _ _ _ _ Hb) as (t0 & Hl0).
      pose proof (IH u Hu _ _ _ _ Hb (path_step _ _ _ _ Hp (Hc f Hf) Hl0)) as Hg.
      destruct (path_room _ _ _ _ Hp (Hc f Hf) Hl0) as (k' & Hk1 & Hk2). rewrite Hk2 in Hg.
      assert (Hkk : k' = k) by lia. rewrite Hkk in Hg. exact Hg. }
    apply (members_meet cyc id (v0 :: vs) bs v Hp Hv); [lia|]. right. eauto.
Qed.

(** Enum-like: at least one byte before the fields. *)
Lemma enum_meet k fs vs bs pre v :
  (k <= n)%nat -> (forall v, In v vs -> good v) ->
  enc_list (fun f => enc false (f_ty f)) fs vs = Some bs -> vsize v = S (total vs) -> (List.length fs <= w)%nat ->
  pre <> [] -> meets big (gk k) (hk k) v (pre ++ bs).
Proof.
  intros Hk IH He Hv Hw Hpre.
  destruct (enc_list_meets _ big (gk n) (hk n) _ _ _ (ordered n (le_n _)) He) as [(_ & _ & Hm) Hlen].
  { intros f u b Hf Hu Hb. cbv beta in Hb. destruct (enc_lookup _ _ _ _ _ Hb) as (t0 & Hl0).
    pose proof (IH u Hu _ _ _ _ Hb (path_self _ _ Hl0)) as [Hg1 Hg2]. cbn [List.length] in *.
    pose proof (gk_mono (n - 1) n ltac:(lia)). pose proof (hk_mono (n - 1) n ltac:(lia)).
    split; intros Hx; [specialize (Hg1 Hx)|specialize (Hg2 Hx)]; lia. }
  split; [destruct pre; [congruence|discriminate]|]. intros _. rewrite Hv, app_length.
  pose proof (hk_enum k). assert (1 <= List.length pre)%nat by (destruct pre; [congruence|cbn; lia]).
  rewrite Hlen in Hm. nia.
Qed.

Ltac split_guard :=
  repeat match goal with
  | H : guard _ _ = Some _ |- _ => apply guard_ok in H; destruct H as [H ->]
  | H : (_ && _)%bool = true |- _ => apply andb_true_iff in H; destruct H
  end.

Lemma le_bytes_ne k x : (0 < k)%nat -> le_bytes k x <> [].
Proof. destruct k; [lia|discriminate]. Qed.

Lemma usize_pos x : (0 < usize x)%nat.
Proof. destruct x; cbn; lia. Qed.

Lemma value_good v : good v.
Proof.
  induction v as [x|z|b|s|vs IH|vs IH|i vs IH| |vs IH|vs IH|v IH|x s|s|e|i s|i j vs IH] using value_ind';
    intros cpt id bs cyc He Hp; destruct (enc_lookup _ _ _ _ _ He) as (t & Hl);
    pose proof (path_len _ _ Hp) as Hpl;
    assert (Hk : (n - List.length cyc <= n)%nat) by lia;
    try rewrite Forall_forall in IH;
    cbn [Spec.enc] in He; rewrite Hl in He.
  - apply leaf_meets; [exact Hk| |cbn; lia].
    assert (Hd : match def_of t with
          | Some (TPrimitive (PrU w)) => guard (fits w x) (if cpt then compact_enc x else le_bytes (usize w) x)
          | Some (TPrimitive PrU256) => guard (negb cpt && (x <? 2 ^ 256)%N) (le_bytes 32 x)
          | Some (TPrimitive PrChar) => guard (negb cpt && scalar x) (le_bytes 4 x)
          | _ => None end = Some bs -> bs <> []).
    { destruct (def_of t) as [[| | | | |[]| |]|]; try discriminate; intros H; split_guard;
        try (apply le_bytes_ne; lia).
      destruct cpt; [apply compact_enc_nonempty|apply le_bytes_ne, usize_pos]. }
    destruct (classify t); try exact (Hd He).
    destruct cpt; split_guard; [apply compact_enc_nonempty|apply le_bytes_ne, usize_pos].
  - apply leaf_meets; [exact Hk| |cbn; lia].
    destruct (def_of t) as [[| | | | |[]| |]|]; try discriminate; split_guard; apply le_bytes_ne;
      [apply usize_pos|lia].
  - apply leaf_meets; [exact Hk| |cbn; lia].
    destruct (def_of t) as [[| | | | |[]| |]|]; try discriminate; split_guard. discriminate.
  - destruct (def_of t) as [[| | | | |[]| |]|]; try discriminate. cbv zeta in He. split_guard.
    pose proof (compact_enc_nonempty (N.of_nat (List.length (utf8s s)))) as Hc.
    destruct (compact_enc (N.of_nat (List.length (utf8s s)))) as [|c0 c] eqn:Hce; [congruence|].
    apply leaf_meets; [exact Hk|discriminate|]. cbn [vsize app List.length]. rewrite app_length. lia.
  - destruct (def_of t) as [[fs| | | | | | |]|] eqn:Hd; try discriminate. destruct (cpt && _); [discriminate|].
    eapply fields_meet; [|exact IH|exact Hp|exact Hl|exact He|reflexivity|].
    + intros f Hf. exists t. split; [exact Hl|]. rewrite Hd. eauto.
    + pose proof (width_le _ _ Hl) as Hw. unfold width in Hw. rewrite (mentions_def _ _ Hd) in Hw. lia.
  - destruct (def_of t) as [[| | | |ids| | |]|] eqn:Hd; try discriminate. destruct (cpt && _); [discriminate|].
    assert (Hef : enc_list (fun f => enc cpt (f_ty f)) (map (fun i => Field None i None []) ids) vs = Some bs).
    { rewrite <- He. clear. revert ids. induction vs as [|v vs IH]; intros [|i ids]; try reflexivity.
      cbn [map enc_list f_ty]. fold (enc_list (enc cpt)). rewrite <- IH. reflexivity. }
    eapply fields_meet; [|exact IH|exact Hp|exact Hl|exact Hef|reflexivity|].
    + intros f Hf. apply in_map_iff in Hf. destruct Hf as (i & <- & Hi). exists t. split; [exact Hl|]. rewrite Hd. exact Hi.
    + rewrite map_length. pose proof (width_le _ _ Hl) as Hw. unfold width in Hw. rewrite (mentions_def _ _ Hd) in Hw. lia.
  - destruct (def_of t) as [[|variants| | | | | |]|] eqn:Hd; try discriminate.
    destruct (by_index variants i) as [var|] eqn:Hi; [|discriminate].
    destruct (variant_sig types t var); [discriminate|]. destruct (pallet_items types t var); [discriminate|].
    destruct (negb cpt && (i <? 256)%N); [|discriminate].
    destruct (enc_list (fun f => enc false (f_ty f)) (v_fields var) vs) as [b1|] eqn:Hb1; [|discriminate].
    injection He as <-. change (i :: b1) with ([i] ++ b1).
    eapply enum_meet; [exact Hk|exact IH|exact Hb1|reflexivity| |discriminate].
    eapply width_variant; [exact Hl|exact (mentions_def _ _ Hd)|exact Hi].
  - destruct (def_of t) as [[|[]| | | | | |]|]; try discriminate. split_guard.
    split; [intros _; apply gk_pos|congruence].
  - destruct (def_of t) as [[| |el| | | | |]|] eqn:Hd; try discriminate. cbv zeta in He.
    destruct (negb cpt && fits U32 _); [|discriminate].
    destruct (enc_all (enc false el) vs) as [b1|] eqn:Hb1; [|discriminate]. injection He as <-.
    pose proof (compact_enc_nonempty (N.of_nat (List.length vs))) as Hc.
    destruct (compact_enc (N.of_nat (List.length vs))) as [|c0 c] eqn:Hce; [congruence|].
    split; [discriminate|]. intros _. cbn [vsize app List.length]. fold (total vs). rewrite app_length.
    assert (Ht : (total vs <= big * List.length b1)%nat).
    { apply (enc_all_nonempty _ big (gk n) (hk n) _ _ (hk_big n (le_n _)) Hb1).
      intros v b Hin Hb. split.
      - intros ->. exact (Hne _ _ _ _ Hl Hd Hb).
      - destruct (enc_lookup _ _ _ _ _ Hb) as (t0 & Hl0).
        pose proof (IH v Hin _ _ _ _ Hb (path_self _ _ Hl0)) as [Hg1 Hg2]. cbn [List.length] in *.
        pose proof (gk_mono (n - 1) n ltac:(lia)). pose proof (hk_mono (n - 1) n ltac:(lia)).
        split; intros Hx; [specialize (Hg1 Hx)|specialize (Hg2 Hx)]; lia. }
    pose proof (hk_enum (n - List.length cyc)). nia.
  - destruct (def_of t) as [[| | |len el| | | |]|] eqn:Hd; try discriminate.
    destruct (negb cpt && (len =? N.of_nat (List.length vs))%N) eqn:Hg; [|discriminate].
    apply andb_true_iff in Hg. destruct Hg as [_ Hlen].
    assert (Hef : enc_list (fun f => enc false (f_ty f)) (map (fun _ => Field None el None []) vs) vs = Some bs).
    { rewrite <- He. clear. induction vs as [|v vs IH]; [reflexivity|].
      cbn [map enc_list enc_all f_ty]. fold (enc_all (enc false el)). rewrite <- IH. reflexivity. }
    eapply fields_meet; [|exact IH|exact Hp|exact Hl|exact Hef|reflexivity|].
    + intros f Hf. apply in_map_iff in Hf. destruct Hf as (i & <- & Hi). exists t. split; [exact Hl|]. rewrite Hd. reflexivity.
    + rewrite map_length. pose proof (width_le _ _ Hl) as Hw. unfold width in Hw. rewrite (mentions_def _ _ Hd) in Hw. lia.
  - destruct (def_of t) as [[| | | | | |inner|]|] eqn:Hd; try discriminate. destruct cpt; [discriminate|].
    assert (Hef : enc_list (fun f => enc true (f_ty f)) [Field None inner None []] [v] = Some bs).
    { cbn [enc_list f_ty]. rewrite He, app_nil_r. reflexivity. }
    eapply (fields_meet cyc id t true [Field None inner None []] [v]);
      [|intros u [<-|[]]; exact IH|exact Hp|exact Hl|exact Hef|unfold total; cbn; lia|].
    + intros f [<-|[]]. exists t. split; [exact Hl|]. rewrite Hd. reflexivity.
    + pose proof w_pos. cbn [List.length]. lia.
  - destruct (def_of t) as [[| | | | | | |st o]|]; try discriminate.
    destruct (bit_order_of types o); [|discriminate]. destruct (bit_store types st) as [uw|]; [|discriminate].
    cbv zeta in He. split_guard.
    pose proof (compact_enc_nonempty x) as Hc. destruct (compact_enc x) as [|c0 c] eqn:Hce; [congruence|].
    apply leaf_meets; [exact Hk|discriminate|]. cbn [vsize app List.length]. rewrite app_length, flat_le_bytes_length.
    match goal with H : (N.of_nat (List.length s) =? _)%N = true |- _ => apply N.eqb_eq in H; rename H into Hlen end.
    assert (Hx : (N.to_nat x <= 8 * (usize uw * List.length s))%nat) by (destruct uw; cbn [usize] in *; lia).
    lia.
  - apply leaf_meets; [exact Hk| |].
    + destruct (classify t) as [|k| | | | |]; try discriminate; split_guard;
        match goal with H : (List.length s =? _)%nat = true |- _ => apply Nat.eqb_eq in H end;
        intros ->; try (destruct k; discriminate); discriminate.
    + assert (Hsl : s = bs) by (destruct (classify t); try discriminate; split_guard; reflexivity).
      assert (Hpos : s <> []).
      { destruct (classify t) as [|k| | | | |]; try discriminate; split_guard;
        match goal with H : (List.length s =? _)%nat = true |- _ => apply Nat.eqb_eq in H end;
        intros ->; try (destruct k; discriminate); discriminate. }
      assert (Hbig : (10 <= List.length s)%nat).
      { destruct (classify t) as [|k| | | | |]; try discriminate; split_guard;
        match goal with H : (List.length s =? _)%nat = true |- _ => apply Nat.eqb_eq in H; rewrite H end;
        try (destruct k; cbn; lia); lia. }
      subst bs. cbn [vsize]. lia.
  - apply leaf_meets; [exact Hk| |cbn; lia].
    destruct (classify t); try discriminate; split_guard. destruct e; unfold era_enc; [discriminate|apply le_bytes_ne; lia].
  - destruct (def_of t) as [[|variants| | | | | |]|]; try discriminate.
    destruct (by_index variants i) as [var|]; [|discriminate].
    destruct (variant_sig types t var) as [k|]; [|discriminate]. split_guard.
    apply leaf_meets; [exact Hk|discriminate|]. cbn [vsize List.length]. lia.
  - destruct (def_of t) as [[|variants| | | | | |]|] eqn:Hd; try discriminate.
    destruct (by_index variants i) as [var|] eqn:Hi; [|discriminate].
    destruct (pallet_items types t var) as [[inner items]|] eqn:Hpi; [|discriminate].
    destruct (by_index items j) as [item|] eqn:Hj; [|discriminate].
    destruct (_ && _); [|discriminate].
    destruct (enc_list (fun f => enc false (f_ty f)) (v_fields item) vs) as [b1|] eqn:Hb1; [|discriminate].
    injection He as <-. change (i :: j :: b1) with ([i; j] ++ b1).
    eapply enum_meet; [exact Hk|exact IH|exact Hb1|reflexivity| |discriminate].
    unfold pallet_items in Hpi. destruct (v_fields var) as [|f [|]]; try discriminate.
    destruct (lookup (f_ty f)) as [ti|] eqn:Hli; [|discriminate].
    destruct (t_def ti) eqn:Hdi; try discriminate. destruct (item_eqb _ _); [|discriminate]. injection Hpi as <- <-.
    eapply width_variant; [exact Hli|exact Hdi|exact Hj].
Qed.

Lemma iter_plus a b (f : nat -> nat) x : Nat.iter a f (Nat.iter b f x) = Nat.iter (a + b) f x.
Proof. induction a as [|a IH]; [reflexivity|]. change (f (Nat.iter a f (Nat.iter b f x)) = f (Nat.iter (a + b) f x)). rewrite IH. reflexivity. Qed.

Lemma growth_big : growth types = big.
Proof.
  unfold growth, big, hk, gk. rewrite iter_plus. f_equal. fold n w.
  replace (n + S n)%nat with (S (2 * n)) by lia. reflexivity.
Qed.

Theorem enc_size cpt id v bs : enc cpt id v = Some bs -> (vsize v <= growth types * (1 + List.length bs))%nat.
Proof.
  intros He. destruct (enc_lookup _ _ _ _ _ He) as (t & Hl).
  destruct (value_good v _ _ _ _ He (path_self _ _ Hl)) as [H1 H2]. cbn [List.length] in *.
  pose proof (gk_hk (n - 1) ltac:(lia)). pose proof (hk_big (n - 1) ltac:(lia)). rewrite growth_big.
  destruct bs as [|b bs]; [specialize (H1 eq_refl); cbn [List.length]; lia|].
  specialize (H2 ltac:(discriminate)). nia.
Qed.

Theorem decoded_size data id pos x q : is_bytes data -> decode_at types data id pos = (Ok x, q) ->
  (size (x_data x) <= growth types * (1 + (q - pos)))%nat.
Proof.
  intros Hb Hd. destruct (only_what_is_there _ _ _ _ _ _ Hb Hd) as (v & He & Hv & Hq).
  pose proof (view_size _ _ _ _ _ _ _ Hv) as H1. pose proof (enc_size _ _ _ _ He) as H2.
  remember (slice data pos (q - pos)) as bs eqn:Hbs. replace (q - pos)%nat with (List.length bs) by lia. lia.
Qed.

End Bound.
