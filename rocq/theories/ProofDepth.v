(** Proofs for C68. *)
From Coq Require Import Lia.
From Verif Require Import Base Compact Types Indicators Decode Sign Unchecked Storage Cards Spec SpecDepth SpecCards ProofCards.
Local Open Scope list_scope.

Lemma list_max_le' l n : Forall (fun x => (x <= n)%nat) l -> (list_max l <= n)%nat.
Proof. intros H. apply list_max_le. exact H. Qed.
Lemma list_max_in l x : In x l -> (x <= list_max l)%nat.
Proof. intros H. pose proof (proj1 (list_max_le l (list_max l)) (le_n _)) as F. rewrite Forall_forall in F. auto. Qed.

Lemma list_max_map {A} (g : A -> nat) a l : list_max (map g (a :: l)) = Nat.max (g a) (list_max (map g l)).
Proof. reflexivity. Qed.

(** Whatever a computation returns satisfies [P]. *)
Definition gives {E X A} (m : M E X A) (P : A -> Prop) : Prop :=
  forall p e a q e', m p e = (Ok a, q, e') -> P a.

Lemma gives_bind {E X A B} (m : M E X A) (f : A -> M E X B) (P : A -> Prop) (Q : B -> Prop) :
  gives m P -> (forall a, P a -> gives (f a) Q) -> gives (bind m f) Q.
Proof.
  intros Hm Hf p e b q e' H. unfold bind in H. destruct (m p e) as [[[a|x| |] p1] e1] eqn:Em; try discriminate H.
  exact (Hf a (Hm _ _ _ _ _ Em) _ _ _ _ _ H).
Qed.
Lemma gives_any {E X A} (m : M E X A) : gives m (fun _ => True).
Proof. intros p e a q e' _. exact I. Qed.
Lemma gives_then {E X A B} (m : M E X A) (f : A -> M E X B) (Q : B -> Prop) : (forall a, gives (f a) Q) -> gives (bind m f) Q.
Proof. intros Hf. eapply gives_bind; [apply gives_any|]. intros a _. apply Hf. Qed.
Lemma gives_ret {E X A} (a : A) (P : A -> Prop) : P a -> gives (ret a : M E X A) P.
Proof. intros H p e b q e' Hr. unfold ret in Hr. congruence. Qed.
Lemma gives_fail {E X A} (x : X) (P : A -> Prop) : gives (fail x : M E X A) P.
Proof. intros p e b q e' Hr. discriminate Hr. Qed.
Lemma gives_imp {E X A} (m : M E X A) (P Q : A -> Prop) : gives m P -> (forall a, P a -> Q a) -> gives m Q.
Proof. intros H HI p e a q e' Hr. apply HI. eapply H. exact Hr. Qed.
Lemma gives_map_err {E X Y A} (g : X -> Y) (m : M E X A) P : gives m P -> gives (map_err g m) P.
Proof.
  intros H p e a q e' Hr. unfold map_err in Hr. destruct (m p e) as [[[a'|x| |] p1] e1] eqn:Em; try discriminate Hr.
  injection Hr as -> -> ->. eapply H. exact Em.
Qed.

Definition flat (d : pdata) : Prop := levels d = 1%nat.

Section Depth.
Context {E : Type}.
Variable b : buffer E.
Variable r : registry E.

Ltac flatly := repeat first
  [ apply gives_ret; reflexivity | apply gives_fail
  | apply gives_then; intros ?
  | match goal with |- gives (match ?x with _ => _ end) _ => destruct x end ].

Lemma uint_flat w c : gives (parse_uint b w c) flat.
Proof. unfold parse_uint. flatly. Qed.
Lemma primitive_flat x c : gives (decode_primitive b x c) flat.
Proof.
  unfold decode_primitive. destruct x; unfold decode_str, parse_uint, block_compact; flatly.
Qed.
Lemma fixed_flat k c : gives (parse_fixed b k c) flat.
Proof. unfold parse_fixed, block_compact. flatly. Qed.
Lemma per_flat k c : gives (parse_per b k c) flat.
Proof. unfold parse_per. flatly. Qed.
Lemma era_flat : gives (special_case_era b) flat.
Proof. unfold special_case_era. flatly. Qed.
Lemma h256_flat h : gives (special_case_h256 b h) flat.
Proof. unfold special_case_h256. flatly. Qed.
Lemma bits_flat s o id : gives (decode_bit_sequence b r s o id) flat.
Proof. unfold decode_bit_sequence. flatly. Qed.

Section Body.
Variable dec : ty_input -> propagated -> M E parser_err (ext pdata).
Variable n : nat.
Hypothesis Hdec : forall i p, gives (dec i p) (fun x => (levels (x_data x) <= n)%nat).

Definition fields_fit (l : list (fdata pdata)) : Prop := (list_max (map (fun f => levels (x_data (fd_data f))) l) <= n)%nat.

Lemma fields_loop_fit fs c : gives (fields_loop dec fs c) fields_fit.
Proof.
  revert c. induction fs as [|f fs IH]; intros c; cbn [fields_loop]; [apply gives_ret; unfold fields_fit; cbn; lia|].
  apply gives_then. intros p. eapply gives_bind; [apply Hdec|]. intros x Hx. eapply gives_bind; [apply IH|].
  intros l Hl. apply gives_ret. unfold fields_fit in *. rewrite list_max_map. cbn [fd_data]. lia.
Qed.

Lemma fields_fit_ok fs c : gives (decode_fields dec fs c) fields_fit.
Proof. unfold decode_fields. destruct fs as [|f [|g fs]]; try apply fields_loop_fit. apply gives_then. intros _. apply fields_loop_fit. Qed.

Lemma variant_fit vs : gives (decode_variant b dec vs) (fun v => fields_fit (vd_fields v)).
Proof.
  unfold decode_variant. apply gives_then. intros p. apply gives_then. intros v. apply gives_then. intros _.
  eapply gives_bind; [apply fields_fit_ok|]. intros fs H. apply gives_ret. exact H.
Qed.

Lemma levels_pos d : (1 <= levels d)%nat.
Proof. destruct d; cbn; lia. Qed.

Lemma elements_fit k hu : gives (elements_loop dec k hu) (fun l => (list_max (map levels l) <= n)%nat /\ (l <> [] -> 1 <= n)%nat).
Proof.
  induction k as [|k IH]; cbn [elements_loop]; [apply gives_ret; cbn; split; [lia|congruence]|].
  eapply gives_bind; [apply Hdec|]. intros x Hx. eapply gives_bind; [apply IH|]. intros l [Hl _]. apply gives_ret.
  pose proof (levels_pos (x_data x)). rewrite list_max_map. cbv beta in Hx. split; [lia|intros _; lia].
Qed.

Lemma elements_set_fit el k p : gives (decode_elements_set r dec el k p) (fun x => (levels (x_data x) <= S n)%nat).
Proof.
  unfold decode_elements_set. apply gives_then. intros _. apply gives_then. intros hu.
  destruct (k =? 0)%N; [apply gives_ret; cbn; lia|]. eapply gives_bind; [apply elements_fit|]. intros l [Hl Hn]. apply gives_ret.
  cbn [x_data]. destruct (wrap_sequence l) as [s|] eqn:Es.
  - cbn. destruct l; [discriminate Es|]. specialize (Hn ltac:(discriminate)). lia.
  - cbn [levels]. lia.
Qed.

Lemma tuple_fit ids c : gives (tuple_loop r dec ids c) (fun l => (list_max (map (fun x => levels (x_data x)) l) <= n)%nat).
Proof.
  induction ids as [|id ids IH]; cbn [tuple_loop]; [apply gives_ret; cbn; lia|].
  apply gives_then. intros t. apply gives_then. intros p. eapply gives_bind; [apply Hdec|]. intros x Hx.
  eapply gives_bind; [apply IH|]. intros l Hl. apply gives_ret. rewrite list_max_map. cbv beta in Hx, Hl. lia.
Qed.

Lemma flat_fit (m : M E parser_err pdata) inf : gives m flat ->
  gives (bind m (fun d => ret (Ext d inf))) (fun x => (levels (x_data x) <= S n)%nat).
Proof. intros H. eapply gives_bind; [exact H|]. intros d Hd. apply gives_ret. cbn [x_data]. rewrite Hd. lia. Qed.

Lemma plain_fit t id p : gives (decode_plain b r dec t id p) (fun x => (levels (x_data x) <= S n)%nat).
Proof.
  unfold decode_plain. destruct (t_def t) as [fields|variants|elem|len elem|elems|x|inner|store order].
  - eapply gives_bind; [apply fields_fit_ok|]. intros fs H. apply gives_ret. cbn [x_data levels]. unfold fields_fit in H. lia.
  - apply gives_then. intros _. destruct variants as [|v vs]; [apply gives_ret; cbn; lia|].
    eapply gives_bind; [apply variant_fit|]. intros w H. apply gives_ret. cbn [x_data levels]. unfold fields_fit in H. lia.
  - apply gives_then. intros k. apply elements_set_fit.
  - apply elements_set_fit.
  - assert (G : forall c inf, gives (bind (tuple_loop r dec elems c) (fun l => ret (Ext (DTuple l) inf))) (fun x => (levels (x_data x) <= S n)%nat)).
    { intros c inf. eapply gives_bind; [apply tuple_fit|]. intros l H. apply gives_ret. cbn [x_data levels]. cbv beta in H. lia. }
    destruct elems as [|a [|b' l]]; try apply G. apply gives_then. intros _. apply G.
  - apply flat_fit. apply primitive_flat.
  - apply gives_then. intros _. apply gives_then. intros c. eapply gives_imp; [apply Hdec|]. cbn. intros; lia.
  - apply gives_then. intros _. apply flat_fit. apply bits_flat.
Qed.

Lemma checked_fit k t id p : gives (decode_checked b r dec k t id p) (fun x => (levels (x_data x) <= S n)%nat).
Proof.
  unfold decode_checked. destruct k.
  - apply plain_fit.
  - apply flat_fit. apply fixed_flat.
  - apply gives_then. intros _. apply flat_fit. apply era_flat.
  - apply gives_then. intros _. apply flat_fit. apply h256_flat.
  - apply gives_then. intros _. eapply gives_bind; [apply variant_fit|]. intros v H. apply gives_ret. unfold fields_fit in H.
    destruct item; cbn [x_data levels ps_fields]; lia.
  - apply flat_fit. apply per_flat.
Qed.

Lemma body_fit i p : gives (decode_body b r dec i p) (fun x => (levels (x_data x) <= S n)%nat).
Proof. unfold decode_body. apply gives_then. intros [t id]. apply gives_then. intros k. apply checked_fit. Qed.
End Body.

Lemma decode_fit fuel : forall i p, gives (decode b r fuel i p) (fun x => (levels (x_data x) <= fuel)%nat).
Proof.
  induction fuel as [|fuel IH]; intros i p; [intros p' e a q e' H; discriminate H|]. cbn [decode]. apply body_fit. exact IH.
Qed.

Lemma decode_levels i p : gives (decode_with_type b r i p) (fun x => (levels (x_data x) <= most_levels (reg_bound r) (total_len b))%nat).
Proof. exact (decode_fit (decode_fuel b r) i p). Qed.
End Depth.

(** ** Cards *)

Section Cards.
Variable base58 : fixed_kind -> bytes -> N -> string.
Variable identicon : bytes -> bytes.
Variable specs : short_specs.
Variable name : string.
Notation card := (card base58 identicon specs name).

(** Indents from [lo] on, below [hi]. *)
Definition within (lo hi : nat) (l : list ecard) : Prop := Forall (fun c => (lo <= ec_indent c < hi)%nat) l.

Lemma within_wider lo hi lo' hi' l : within lo hi l -> (lo' <= lo)%nat -> (hi <= hi')%nat -> within lo' hi' l.
Proof. intros H A B. eapply Forall_impl; [|exact H]. cbn. intros; lia. Qed.

Definition fits_below (d : pdata) : Prop := forall inf n db, within n (n + 3 * levels d) (card d inf n db).

Lemma fields_below fs : Forall (fun f => fits_below (x_data (fd_data f))) fs ->
  forall i n db, within n (n + 1 + 3 * list_max (map (fun f => levels (x_data (fd_data f))) fs)) (card_field_set card i fs n db).
Proof.
  induction 1 as [|f fs Hf Hfs IH]; intros i n db; [constructor|]. cbn [card_field_set].
  assert (list_max (map (fun f => levels (x_data (fd_data f))) (f :: fs)) =
    Nat.max (levels (x_data (fd_data f))) (list_max (map (fun f => levels (x_data (fd_data f))) fs))) as -> by reflexivity.
  constructor; [cbn; lia|]. apply Forall_app. split.
  - unfold card_ext_with. eapply within_wider; [apply Hf|lia|lia].
  - eapply within_wider; [apply IH|lia|lia].
Qed.

Lemma variant_below fs : Forall (fun f => fits_below (x_data (fd_data f))) fs ->
  forall n db, within n (n + 1 + 3 * list_max (map (fun f => levels (x_data (fd_data f))) fs)) (card_variant_fields card fs n db).
Proof.
  intros H n db. unfold card_variant_fields. pose proof (fields_below fs H 0 n db) as G.
  destruct fs as [|f [|g fs]]; try exact G. destruct (fd_name f); [exact G|]. unfold card_unnamed_single_field.
  inversion H as [|? ? Hf _]; subst. eapply within_wider; [apply Hf|lia|]. rewrite list_max_map. lia.
Qed.

Lemma item_below c i : Forall (fun f => fits_below (x_data (fd_data f))) (ps_fields c) ->
  forall n, within n (n + 3 * levels (DCall c)) (card_pallet_specific card c n i).
Proof.
  intros H n. unfold card_pallet_specific. cbn [levels]. constructor; [cbn; lia|]. constructor; [cbn; lia|].
  eapply within_wider; [apply variant_below; exact H|lia|lia].
Qed.

Lemma card_below d : fits_below d.
Proof.
  induction d as [d L|fs H|v H|c H|c H|l H|i s|i l H] using pdata_ind'; intros inf n db.
  - destruct d; try contradiction L; try (constructor; [cbn; lia|constructor]). destruct specialty; constructor; try (cbn; lia); constructor.
  - cbn [Cards.card]. pose proof (fields_below fs H 0 (n + 1) db) as G. cbn [levels].
    destruct fs as [|f [|g r]]; [constructor| |].
    + destruct (fd_name f).
      * constructor; [cbn; lia|]. eapply within_wider; [exact G|lia|lia].
      * unfold card_unnamed_single_field. inversion H as [|? ? Hf _]; subst. eapply within_wider; [apply Hf|lia|]. rewrite list_max_map. lia.
    + constructor; [cbn; lia|]. eapply within_wider; [exact G|lia|lia].
  - cbn [Cards.card levels]. constructor; [cbn; lia|]. constructor; [cbn; lia|].
    eapply within_wider; [apply variant_below; exact H|lia|lia].
  - cbn [Cards.card]. apply (item_below c ItCall H).
  - cbn [Cards.card]. exact (item_below c ItEvent H n).
  - cbn [Cards.card levels]. destruct l as [|x l]; [constructor|]. constructor; [cbn; lia|].
    assert (G : forall m, within m (m + 3 * list_max (map (fun x => levels (x_data x)) (x :: l))) (card_tuple card (x :: l) m db)).
    { intros m. clear inf. induction H as [|y k Hy Hk IH]; [constructor|]. cbn [card_tuple].
      assert (list_max (map (fun x => levels (x_data x)) (y :: k)) =
        Nat.max (levels (x_data y)) (list_max (map (fun x => levels (x_data x)) k))) as -> by reflexivity.
      apply Forall_app. split; [unfold card_ext_with; eapply within_wider; [apply Hy|lia|lia]|eapply within_wider; [exact IH|lia|lia]]. }
    eapply within_wider; [apply G|lia|lia].
  - cbn [Cards.card levels]. unfold card_sequence. destruct s as [w l|l inner]; [destruct w|].
    all: try (constructor; [cbn; lia|]). all: try constructor.
    all: apply Forall_map, Forall_forall; intros x _; cbn; lia.
  - cbn [Cards.card levels]. constructor; [cbn; lia|].
    assert (G : forall m, within m (m + 3 * list_max (map levels l)) (card_elements card l m db)).
    { intros m. clear inf. induction H as [|y k Hy Hk IH]; [constructor|]. cbn [card_elements].
      assert (list_max (map levels (y :: k)) = Nat.max (levels y) (list_max (map levels k))) as -> by reflexivity.
      apply Forall_app. split; [eapply within_wider; [apply Hy|lia|lia]|eapply within_wider; [exact IH|lia|lia]]. }
    eapply within_wider; [apply G|lia|lia].
Qed.
End Cards.

(** ** Transactions, unchecked extrinsics, storage entries *)

Lemma gives_local {E X A} pos (m : M E X A) P : gives m P -> gives (at_local pos m) (fun x => P (fst x)).
Proof.
  intros H p e a q e' Hr. unfold at_local in Hr. destruct (m pos e) as [[[a'|x| |] p1] e1] eqn:Em; try discriminate Hr.
  injection Hr as <- _ _. cbn [fst]. eapply H. exact Em.
Qed.
Lemma gives_catch {E X Y A} (m : M E X A) P : gives m P -> gives (catch m : M E Y (A + X)) (fun x => match x with inl a => P a | inr _ => True end).
Proof.
  intros H p e a q e' Hr. unfold catch in Hr. destruct (m p e) as [[[a'|x| |] p1] e1] eqn:Em; try discriminate Hr.
  - injection Hr as <- _ _. eapply H. exact Em.
  - injection Hr as <- _ _. exact I.
Qed.
Lemma gives_fst {E X A B} (m : M E X (A * B)) P : gives m (fun x => P (fst x)) -> gives (bind m (fun x => ret (fst x))) P.
Proof. intros H. eapply gives_bind; [exact H|]. intros [a b] Ha. apply gives_ret. exact Ha. Qed.

Section Whole.
Context {E ME : Type}.
Variable b : buffer E.
Variable m : metadata E ME.
Notation lim := (most_levels (reg_bound (m_types m)) (total_len b)).
Definition fit (x : ext pdata) : Prop := (levels (x_data x) <= lim)%nat.
Definition fit_call (c : psdata pdata) : Prop := (levels (DCall c) <= lim)%nat.

Lemma call_unmarked_levels b' : (total_len b' <= total_len b)%nat -> gives (decode_as_call_unmarked b' m) fit_call.
Proof.
  intros Hb. unfold decode_as_call_unmarked. apply gives_then. intros id. eapply gives_bind; [apply gives_map_err, decode_levels|].
  intros x Hx. cbv beta in Hx. destruct x as [d inf]. cbn [x_data] in *. destruct d; try apply gives_fail. apply gives_ret.
  unfold fit_call. etransitivity; [exact Hx|]. unfold most_levels. apply le_n_S. apply Nat.mul_le_mono_r. lia.
Qed.

Lemma call_levels mk : gives (decode_as_call b mk m) fit_call.
Proof.
  unfold decode_as_call, data_no_extensions. destruct (limit_length b (extensions_start mk)) as [b'|] eqn:Hl; [|intros p e a q e' H; discriminate H].
  assert (Hb : (total_len b' <= total_len b)%nat).
  { unfold limit_length in Hl. destruct (Nat.ltb_spec (total_len b) (extensions_start mk)); [discriminate Hl|]. injection Hl as <-. cbn. assumption. }
  eapply gives_bind; [apply gives_local, (call_unmarked_levels b' Hb)|]. intros [c q] Hc.
  destruct (q =? extensions_start mk)%nat; [apply gives_ret; exact Hc|apply gives_fail].
Qed.

Lemma extensions_levels g : gives (decode_extensions_unmarked b m g) (Forall fit).
Proof.
  unfold decode_extensions_unmarked. apply gives_then. intros l. eapply gives_bind with (P := Forall fit).
  - apply gives_map_err. generalize (extension_types l). clear l. intros l. induction l as [|[i id] l IH]; cbn [extensions_loop]; [apply gives_ret; constructor|].
    eapply gives_bind; [apply decode_levels|]. intros x Hx. eapply gives_bind; [exact IH|]. intros tl Ht. apply gives_ret. constructor; assumption.
  - intros xs Hxs. apply gives_then. intros p. destruct (negb _); [apply gives_fail|]. apply gives_then. intros nv. apply gives_then. intros _.
    apply gives_ret. exact Hxs.
Qed.

Lemma transaction_levels g : gives (parse_transaction b m g)
  (fun t => Forall fit (tp_extensions t) /\ match tp_call t with inl c => fit_call c | inr _ => True end).
Proof.
  unfold parse_transaction. apply gives_then. intros mk. eapply gives_bind with (P := Forall fit).
  - unfold decode_extensions. apply gives_fst with (P := Forall fit). exact (gives_local _ _ _ (extensions_levels g)).
  - intros xs Hxs. eapply gives_bind; [apply gives_catch, call_levels|]. intros c Hc. apply gives_ret. cbn. auto.
Qed.

Lemma unmarked_levels g : gives (parse_transaction_unmarked b m g) (fun t => fit_call (fst t) /\ Forall fit (snd t)).
Proof.
  unfold parse_transaction_unmarked. apply gives_fst with (P := fun t => fit_call (fst t) /\ Forall fit (snd t)).
  refine (gives_local _ _ (fun t => fit_call (fst t) /\ Forall fit (snd t)) _). eapply gives_bind; [apply call_unmarked_levels; lia|]. intros c Hc.
  eapply gives_bind; [apply extensions_levels|]. intros xs Hxs. apply gives_ret. auto.
Qed.

Definition fit_unchecked (u : unchecked) : Prop :=
  match u with
  | UxSigned a s x c => fit a /\ fit s /\ fit x /\ fit_call c
  | UxUnsigned c => fit_call c
  end.

Lemma type_levels id : gives (decode_as_type_at_position b (m_types m) id) fit.
Proof. apply decode_levels. Qed.

Lemma unchecked_levels : gives (decode_as_unchecked_extrinsic b m) fit_unchecked.
Proof.
  unfold decode_as_unchecked_extrinsic. apply gives_fst with (P := fit_unchecked). refine (gives_local _ _ fit_unchecked _).
  unfold decode_unchecked_body. apply gives_then. intros ps. cbv zeta. apply gives_then. intros n. apply gives_then. intros s.
  destruct (_ <? _)%N; [apply gives_fail|]. destruct (_ <? _)%N; [apply gives_fail|].
  apply gives_then. intros v. apply gives_then. intros _. apply gives_then. intros w.
  destruct (negb _); [apply gives_fail|]. destruct (_ =? _)%N.
  - eapply gives_bind; [apply gives_map_err, type_levels|]. intros [d i] H. unfold fit in H. cbn [x_data] in *.
    destruct d; try apply gives_fail. apply gives_ret. exact H.
  - eapply gives_bind; [apply gives_map_err, type_levels|]. intros x1 H1.
    eapply gives_bind; [apply gives_map_err, type_levels|]. intros x2 H2.
    eapply gives_bind; [apply gives_map_err, type_levels|]. intros x3 H3.
    eapply gives_bind; [apply gives_map_err, type_levels|]. intros [d i] H. unfold fit in H. cbn [x_data] in *.
    destruct d; try apply gives_fail. apply gives_ret. repeat split; assumption.
Qed.
End Whole.

Section Stored.
Context {E : Type}.
Variable blake2_128 twox_64 : bytes -> bytes.
Variable r : registry E.

Definition fit_part (n : nat) (k : key_part) : Prop := match k with KHash _ _ _ => True | KParsed x => (levels (x_data x) <= n)%nat end.
Definition fit_key (n : nat) (k : key_data) : Prop :=
  match k with KPlain => True | KSingle k => fit_part n k | KTuple l _ => Forall (fit_part n) l end.

Notation kn b := (most_levels (reg_bound r) (total_len b)).

Lemma cut_levels len k id (b : buffer E) n : gives (cut_hash len k id b) (fit_part n).
Proof.
  unfold cut_hash. apply gives_then. intros p. apply gives_then. intros s. destruct (_ =? _)%N; [|intros p' e a q e' H; discriminate H].
  apply gives_then. intros _. apply gives_ret. exact I.
Qed.
Lemma check_levels len h id (b : buffer E) : gives (check_hash len h id b r) (fit_part (kn b)).
Proof.
  unfold check_hash. apply gives_then. intros p. apply gives_then. intros s. destruct (_ =? _)%N; [|intros p' e a q e' H; discriminate H].
  cbv zeta. apply gives_then. intros _. eapply gives_bind; [apply gives_map_err, decode_levels|]. intros x Hx.
  apply gives_then. intros q. apply gives_then. intros [c|c]; [|intros p' e a q' e' H; discriminate H].
  destruct (bytes_eqb _ _); [apply gives_ret; exact Hx|apply gives_fail].
Qed.
Lemma part_levels h id (b : buffer E) : gives (key_part_decode blake2_128 twox_64 h id b r) (fit_part (kn b)).
Proof.
  destruct h; cbn [key_part_decode]; try apply cut_levels; try apply check_levels.
  eapply gives_bind; [apply gives_map_err, decode_levels|]. intros x Hx. apply gives_ret. exact Hx.
Qed.
Lemma parts_levels hs : forall ids (b : buffer E), gives (key_parts blake2_128 twox_64 hs ids b r) (Forall (fit_part (kn b))).
Proof.
  induction hs as [|h hs IH]; intros [|id ids] b; cbn [key_parts]; try (apply gives_ret; constructor).
  eapply gives_bind; [apply part_levels|]. intros x Hx. eapply gives_bind; [apply IH|]. intros l Hl. apply gives_ret. constructor; assumption.
Qed.
Lemma key_levels hs id (b : buffer E) pos : gives (process_key_mapped blake2_128 twox_64 hs id b pos r) (fit_key (kn b)).
Proof.
  unfold process_key_mapped. apply gives_fst with (P := fit_key (kn b)). refine (gives_local _ _ (fit_key (kn b)) _).
  unfold process_key_body. eapply gives_bind with (P := fit_key (kn b)).
  - assert (G : gives (do t <- map_err (fun x => ParsingKey (PRegistry x)) (resolve_ty r id);
        match t_def t with
        | TTuple elems => if Nat.eqb (List.length elems) (List.length hs) then do content <- key_parts blake2_128 twox_64 hs elems b r; ret (KTuple content (info_from_ty t))
                          else fail MultipleHashesNumberMismatch
        | _ => fail MultipleHashesNotATuple end) (fit_key (kn b))).
    { apply gives_then. intros t. destruct (t_def t); try apply gives_fail. destruct (Nat.eqb _ _); [|apply gives_fail].
      eapply gives_bind; [apply parts_levels|]. intros l Hl. apply gives_ret. exact Hl. }
    destruct hs as [|h [|h' hs]]; [exact G| |exact G].
    eapply gives_bind; [apply part_levels|]. intros x Hx. apply gives_ret. exact Hx.
  - intros k Hk. apply gives_then. intros q. destruct (Nat.eqb _ _); [apply gives_ret; exact Hk|apply gives_fail].
Qed.
Lemma all_levels (b : buffer E) id : gives (decode_all_m b r id) (fun x => (levels (x_data x) <= kn b)%nat).
Proof.
  unfold decode_all_m. apply gives_fst with (P := fun x => (levels (x_data x) <= kn b)%nat). refine (gives_local _ _ (fun x => (levels (x_data x) <= kn b)%nat) _).
  unfold decode_all_body. apply gives_then. intros _. eapply gives_bind; [apply decode_levels|]. intros x Hx. apply gives_then. intros q.
  destruct (Nat.eqb _ _); [apply gives_ret; exact Hx|apply gives_fail].
Qed.
Lemma storage_levels kb vb en : gives (decode_as_storage_entry blake2_128 twox_64 kb vb en r)
  (fun s => fit_key (kn kb) (st_key s) /\ (levels (x_data (st_value s)) <= kn vb)%nat).
Proof.
  unfold decode_as_storage_entry. cbv zeta. destruct (Nat.ltb _ _); [apply gives_fail|]. destruct (en_ty en) as [id|hs kt vt].
  - destruct (negb _); [apply gives_fail|]. eapply gives_bind; [apply gives_map_err, all_levels|]. intros x Hx. apply gives_ret. split; [exact I|exact Hx].
  - eapply gives_bind; [apply key_levels|]. intros k Hk. eapply gives_bind; [apply gives_map_err, all_levels|]. intros x Hx. apply gives_ret. split; [exact Hk|exact Hx].
Qed.
End Stored.
