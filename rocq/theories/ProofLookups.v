(** The number of type lookups (C71). *)
From Coq Require Import Lia ZifyBool ZifyNat ZifyN.
From Verif Require Import Base Compact Types Indicators Decode Sign Unchecked Storage Spec SpecSize SpecLookups
  ProofTables ProofPeel ProofSafe ProofReads.
From Verif Require ProofBase ProofSpec.
Local Open Scope list_scope.

(** ** Values without a byte *)
Inductive hollow (types : list ty) : bool -> N -> Prop :=
| HoStruct c id t fs : lookup types id = Some t -> def_of t = Some (TComposite fs) ->
    (c = true -> List.length fs < 2) -> (forall f, In f fs -> hollow types c (f_ty f)) -> hollow types c id
| HoTuple c id t ids : lookup types id = Some t -> def_of t = Some (TTuple ids) ->
    (c = true -> List.length ids < 2) -> (forall i, In i ids -> hollow types c i) -> hollow types c id
| HoNever id t : lookup types id = Some t -> def_of t = Some (TVariant []) -> hollow types false id
| HoArray id t len el : lookup types id = Some t -> def_of t = Some (TArray len el) ->
    (len <> 0%N -> hollow types false el) -> hollow types false id
| HoCompact id t inner : lookup types id = Some t -> def_of t = Some (TCompact inner) ->
    hollow types true inner -> hollow types false id.

Lemma enc_list_hollow {A} (f : A -> value -> option bytes) l :
  (forall a, In a l -> exists v, f a v = Some []) -> exists vs, enc_list f l vs = Some [].
Proof.
  induction l as [|a l IH]; intros H; [exists []; reflexivity|].
  destruct (H a (or_introl eq_refl)) as [v Hv]. destruct IH as [vs Hvs]; [intros x Hx; apply H; right; exact Hx|].
  exists (v :: vs). cbn [enc_list]. rewrite Hv. fold (enc_list f). rewrite Hvs. reflexivity.
Qed.
Lemma enc_all_hollow (f : value -> option bytes) v k : f v = Some [] -> enc_all f (repeat v k) = Some [].
Proof.
  intros Hv. induction k as [|k IH]; [reflexivity|]. cbn [repeat enc_all]. rewrite Hv. fold (enc_all f). rewrite IH. reflexivity.
Qed.

Lemma enc_arr_eq types id t len el vs : lookup types id = Some t -> def_of t = Some (TArray len el) ->
  enc types false id (VArr vs) = if (len =? N.of_nat (List.length vs))%N then enc_all (enc types false el) vs else None.
Proof. intros Hl Hd. cbn [enc]. rewrite Hl, Hd. reflexivity. Qed.

Lemma hollow_enc types c id : hollow types c id -> exists v, enc types c id v = Some [].
Proof.
  induction 1 as [c id t fs Hl Hd Hc _ IH|c id t ids Hl Hd Hc _ IH|id t Hl Hd|id t len el Hl Hd _ IH|id t inner Hl Hd _ [v IH] ].
  - destruct (enc_list_hollow (fun f => enc types c (f_ty f)) fs IH) as [vs Hvs]. exists (VStruct vs). cbn [enc]. rewrite Hl, Hd.
    destruct (c && (2 <=? List.length fs)%nat)%bool eqn:Hg; [|exact Hvs].
    apply andb_true_iff in Hg. destruct Hg as [H1 H2]. apply Nat.leb_le in H2. specialize (Hc H1). lia.
  - destruct (enc_list_hollow (enc types c) ids IH) as [vs Hvs]. exists (VTuple vs). cbn [enc]. rewrite Hl, Hd.
    destruct (c && (2 <=? List.length ids)%nat)%bool eqn:Hg; [|exact Hvs].
    apply andb_true_iff in Hg. destruct Hg as [H1 H2]. apply Nat.leb_le in H2. specialize (Hc H1). lia.
  - exists VNever. cbn [enc]. rewrite Hl, Hd. reflexivity.
  - destruct (N.eq_dec len 0) as [->|Hn].
    + exists (VArr []). cbn [enc]. rewrite Hl, Hd. reflexivity.
    + destruct (IH Hn) as [v Hv]. exists (VArr (repeat v (N.to_nat len))).
      rewrite (enc_arr_eq _ _ _ _ _ _ Hl Hd), repeat_length, N2Nat.id, N.eqb_refl. apply enc_all_hollow, Hv.
  - exists (VCompact v). cbn [enc]. rewrite Hl, Hd. exact IH.
Qed.

(** ** Counting *)
Section Lookups.
Context {E : Type}.
Variable count : E -> nat.
Notation pays := (pays count).

Definition costs {A} (n p : nat) (P : A -> Prop) (a : A) (q k : nat) : Prop := q = p /\ (k <= n)%nat /\ P a.
Definition halts (n p q k : nat) : Prop := q = p /\ (k <= n)%nat.
(** No lookup, and at least one byte. *)
Definition eats {A} (p : nat) (_ : A) (q k : nat) : Prop := k = 0%nat /\ (p < q)%nat.
Definition chews (p q k : nat) : Prop := k = 0%nat /\ (p <= q)%nat.

Lemma cost_lift {X A} p (P : A -> Prop) (x : A + X) : (forall a, x = inl a -> P a) -> pays p (costs 0 p P) (halts 0 p) (lift x).
Proof. intros H. destruct x; [apply pays_ret|apply pays_fail]; repeat split; auto. Qed.
Lemma cost_lift_int {A} p (P : A -> Prop) (x : A + int_err) : (forall a, x = inl a -> P a) -> pays p (costs 0 p P) (halts 0 p) (lift_int x).
Proof. intros H. apply pays_map_err, cost_lift, H. Qed.
Lemma cost_lift_p {A} p (P : A -> Prop) (x : A + int_err) : (forall a, x = inl a -> P a) -> pays p (costs 0 p P) (halts 0 p) (lift_p x).
Proof. intros H. apply pays_map_err, cost_lift, H. Qed.
Lemma cost_reject p c : pays p (costs 0 p (fun _ => compact_at c = None)) (halts 0 p) (reject_compact_m c).
Proof. apply pays_map_err, cost_lift. intros [] H. unfold reject_compact in H. destruct (compact_at c); [discriminate H|reflexivity]. Qed.

Lemma cost_bind {X A C} n n2 p (P : A -> Prop) (P2 : C -> Prop) (m : M E X A) (f : A -> M E X C) :
  pays p (costs n p P) (halts n p) m -> (forall a, P a -> pays p (costs n2 p P2) (halts n2 p) (f a)) ->
  pays p (costs (n + n2) p P2) (halts (n + n2) p) (bind m f).
Proof.
  intros Hm Hf. eapply pays_bind.
  - eapply pays_imp; [exact Hm|intros a q k H; exact H|]. intros q k [-> H]. split; lia.
  - intros a q k (-> & Hk & Ha). eapply pays_imp; [exact (Hf a Ha)| |].
    + intros c q k' (-> & H & Hc). split; [reflexivity|]. split; [lia|exact Hc].
    + intros q k' [-> H]. split; lia.
Qed.
Lemma cost_weak {X A} n n2 p (P P2 : A -> Prop) (m : M E X A) : pays p (costs n p P) (halts n p) m -> (n <= n2)%nat ->
  (forall a, P a -> P2 a) -> pays p (costs n2 p P2) (halts n2 p) m.
Proof.
  intros H Hn HP. eapply pays_imp; [exact H| |].
  - intros a q k (-> & Hk & Ha). split; [reflexivity|]. split; [lia|auto].
  - intros q k [-> Hk]. split; lia.
Qed.
Lemma cost_ret {X A} n p (P : A -> Prop) (a : A) : P a -> pays p (costs n p P) (halts n p) (@ret E X A a).
Proof. intros H. apply pays_ret. split; [reflexivity|]. split; [lia|exact H]. Qed.
Lemma cost_fail {X A} n p (P : A -> Prop) (x : X) : pays p (costs n p P) (halts n p) (@fail E X A x).
Proof. apply pays_fail. split; lia. Qed.
Lemma cost_catch {X Y A} n p (P : A -> Prop) (m : M E X A) : pays p (costs n p P) (halts n p) m ->
  pays p (costs n p (fun s => match s with inl a => P a | inr _ => True end)) (halts n p) (@catch E X Y A m).
Proof.
  intros H. eapply pays_imp; [apply pays_catch; exact H| |auto].
  intros [a|x] q k Hk; [exact Hk|]. destruct Hk as [-> Hk]. repeat split. exact Hk.
Qed.

(** *** Leaves: nothing is looked up *)
Section Leaves.
Variable b : buffer E.
Hypothesis Hrd : reading_is_free count b.

Lemma free_slice p a n : pays p (costs 0 p (fun _ => True)) (halts 0 p) (read_slice b a n).
Proof.
  intros e. unfold read_slice. pose proof (Hrd a n e) as H. destruct (rd b a n e) as [[l|x] e']; cbn [snd] in H; exists 0%nat;
    (split; [lia|]); repeat split; lia.
Qed.
Lemma free_byte p a : pays p (costs 0 p (fun _ => True)) (halts 0 p) (read_byte b a).
Proof.
  unfold read_byte. apply (cost_bind 0 0 p (fun _ => True)); [apply free_slice|]. intros l _.
  destruct l as [|x [|]]; [apply pays_panic|apply cost_ret|apply pays_panic]; try exact I; split; lia.
Qed.
Lemma free_find_loop w a n : forall p i, pays p (costs 0 p (fun x => match x with Some (_, s) => (a < s)%nat | None => True end)) (halts 0 p) (find_loop w b a n i).
Proof.
  induction n as [|n IH]; intros p i; cbn [find_loop]; [apply cost_ret, I|].
  destruct (Nat.ltb MAX_COMPACT_LEN i); [apply cost_ret, I|].
  apply (cost_bind 0 0 p (fun _ => True)); [apply free_slice|]. intros l _. destruct (compact_decode w l); [apply cost_ret; lia|apply IH].
Qed.
Lemma free_find_compact w a p : pays p (costs 0 p (fun x => (a < snd x)%nat)) (halts 0 p) (find_compact w b a).
Proof.
  unfold find_compact. destruct (_ <? _)%nat; [apply cost_fail|].
  apply (cost_bind 0 0 p (fun x => match x with Some (_, s) => (a < s)%nat | None => True end)); [apply free_find_loop|].
  intros [[v s]|] H; [apply cost_ret, H|apply cost_fail].
Qed.

(** A step that stays, then one that eats. *)
Lemma stay_eat {X A C} p (P : A -> Prop) (m : M E X A) (f : A -> M E X C) : pays p (costs 0 p P) (halts 0 p) m ->
  (forall a, P a -> pays p (eats p) (chews p) (f a)) -> pays p (eats p) (chews p) (bind m f).
Proof.
  intros Hm Hf. eapply pays_bind.
  - eapply pays_imp; [exact Hm|intros a q k H; exact H|]. intros q k [-> H]. split; lia.
  - intros a q k (-> & Hk & Ha). assert (k = 0)%nat as -> by lia. exact (Hf a Ha).
Qed.
Lemma eat_ret {X A C} p (m : M E X A) (g : A -> C) : pays p (eats p) (chews p) m -> pays p (eats p) (chews p) (do x <- m; ret (g x)).
Proof.
  intros H. eapply pays_bind; [exact H|]. intros a q k [-> Hq]. apply pays_ret. split; lia.
Qed.
Lemma eat_fail {X A} p (x : X) : pays p (eats p) (chews p) (@fail E X A x).
Proof. apply pays_fail. split; lia. Qed.

Lemma eat_get_compact w p : pays p (eats p) (chews p) (get_compact w b).
Proof.
  unfold get_compact. apply pays_get. eapply stay_eat; [apply free_find_compact|]. intros x Hx.
  apply pays_set, pays_ret. split; [reflexivity|exact Hx].
Qed.
Lemma eat_cut {A} p n name (f : bytes -> option A) : (0 < n)%N -> pays p (eats p) (chews p) (cut_and_decode b n name f).
Proof.
  intros Hn. unfold cut_and_decode. apply pays_get. apply stay_eat with (P := fun _ => True).
  { unfold read_exact. apply pays_get. apply (cost_bind 0 0 p (fun _ => True)); [apply free_slice|]. intros l _.
    destruct (_ =? _)%N; [apply cost_ret, I|apply pays_panic; split; lia]. }
  intros l _. destruct (f l); [|apply eat_fail].
  unfold shift_pos. intros e. exists 0%nat. cbn. split; [lia|]. split; lia.
Qed.
Lemma eat_block {A} p c (m : M E parser_err A) : pays p (eats p) (chews p) m -> pays p (eats p) (chews p) (block_compact c m).
Proof. intros H. unfold block_compact. destruct (compact_at c); [apply eat_fail|exact H]. Qed.
Lemma eat_str p h : pays p (eats p) (chews p) (decode_str b h).
Proof.
  unfold decode_str. apply pays_get. eapply stay_eat; [apply free_find_compact|]. intros [v s] H. cbn [snd] in H.
  eapply stay_eat; [apply free_slice|]. intros l _. destruct (utf8_valid l); [apply pays_set, pays_ret; split; lia|apply eat_fail].
Qed.
Lemma eat_uint p w c : pays p (eats p) (chews p) (parse_uint b w c).
Proof. unfold parse_uint. apply eat_ret. destruct (compact_at c); [apply eat_get_compact|apply eat_cut, usize_pos]. Qed.
Lemma eat_primitive p x c : pays p (eats p) (chews p) (decode_primitive b x c).
Proof.
  destruct x; cbn [decode_primitive].
  3: { eapply stay_eat; [apply cost_reject|]. intros _ _. apply eat_str. }
  3: apply eat_uint.
  all: apply eat_block, eat_ret, eat_cut; try apply usize_pos; reflexivity.
Qed.
Lemma eat_per p x c : pays p (eats p) (chews p) (parse_per b x c).
Proof.
  unfold parse_per. apply eat_ret. destruct (compact_at c); [|apply eat_cut, usize_pos]. apply eat_ret, eat_get_compact.
Qed.
Lemma eat_fixed p x c : pays p (eats p) (chews p) (parse_fixed b x c).
Proof. apply eat_block, eat_ret, eat_cut. destruct x; reflexivity. Qed.
Lemma eat_h256 p s : pays p (eats p) (chews p) (special_case_h256 b s).
Proof. unfold special_case_h256. apply eat_ret, eat_cut. reflexivity. Qed.
Lemma eat_era p : pays p (eats p) (chews p) (special_case_era b).
Proof.
  unfold special_case_era. apply pays_get. eapply stay_eat; [apply free_slice|]. intros l _. destruct (era_decode_all l).
  - apply pays_set, pays_ret. split; lia.
  - eapply stay_eat; [apply free_slice|]. intros l2 _. destruct (era_decode_all l2); [apply pays_set, pays_ret; split; lia|apply eat_fail].
Qed.
Lemma eat_bitvec p n : pays p (eats p) (chews p) (into_bitvec_decode b n).
Proof.
  unfold into_bitvec_decode. apply pays_get. apply stay_eat with (P := fun x => (0 < snd x)%N).
  { unfold bitvec_positions. apply (cost_bind 0 0 p (fun x => (p < snd x)%nat)); [apply free_find_compact|].
    intros [v s] H. cbn [snd] in H. apply cost_ret. cbn [snd]. lia. }
  intros [[? ?] x] H. cbn [snd] in H. eapply stay_eat; [apply free_slice|]. intros l _. apply pays_set, pays_ret. split; lia.
Qed.
Lemma free_pick p vs a : pays p (costs 0 p (fun v => In v vs)) (halts 0 p) (pick_variant b vs a).
Proof.
  unfold pick_variant. apply (cost_bind 0 0 p (fun _ => True)); [apply free_byte|]. intros x _.
  destruct (find_variant vs x) eqn:Hf; [|apply cost_fail]. apply cost_ret. unfold find_variant in Hf. apply find_some in Hf. apply Hf.
Qed.
End Leaves.
End Lookups.
