(** Proofs for C72. *)
From Verif Require Import Base Compact Types Indicators Decode Sign Unchecked Meta Spec SpecSource SpecMeta SpecRuntime ApiSign ProofBase.

(** Two computations with the same moves and equal answers. *)
Definition alike2 {E X Y A B} (err : X -> Y -> Prop) (val : A -> B -> Prop) (m : M E X A) (m' : M E Y B) : Prop :=
  forall p e, snd (fst (m p e)) = snd (fst (m' p e)) /\ snd (m p e) = snd (m' p e) /\
    match fst (fst (m p e)), fst (fst (m' p e)) with
    | Ok a, Ok b => val a b
    | Err x, Err y => err x y
    | Panic, Panic => True
    | OutOfFuel, OutOfFuel => True
    | _, _ => False
    end.

Lemma al_refl {E X A} (m : M E X A) : alike2 eq eq m m.
Proof. intros p e. destruct (m p e) as [[o q] e']. cbn. destruct o; auto. Qed.
Lemma al_ret {E X Y A B} (err : X -> Y -> Prop) (val : A -> B -> Prop) a b : val a b -> alike2 (E := E) err val (ret a) (ret b).
Proof. intros H p e. cbn. auto. Qed.
Lemma al_fail {E X Y A B} (err : X -> Y -> Prop) (val : A -> B -> Prop) x y : err x y -> alike2 (E := E) err val (fail x) (fail y).
Proof. intros H p e. cbn. auto. Qed.
Lemma al_bind {E X Y A B A' B'} (err : X -> Y -> Prop) (val : A -> B -> Prop) (val' : A' -> B' -> Prop)
    (m : M E X A) (m' : M E Y B) f f' :
  alike2 err val m m' -> (forall a b, val a b -> alike2 err val' (f a) (f' b)) ->
  alike2 err val' (bind m f) (bind m' f').
Proof.
  intros Hm Hf p e. unfold bind. specialize (Hm p e).
  destruct (m p e) as [[o q] s], (m' p e) as [[o' q'] s']. cbn in Hm. destruct Hm as (-> & -> & Hm).
  destruct o, o'; try contradiction; cbn; auto. apply Hf. exact Hm.
Qed.
Lemma al_map {E X Y X' Y' A B} (err : X -> Y -> Prop) (err' : X' -> Y' -> Prop) (val : A -> B -> Prop) f f' (m : M E X A) (m' : M E Y B) :
  alike2 err val m m' -> (forall x y, err x y -> err' (f x) (f' y)) -> alike2 err' val (map_err f m) (map_err f' m').
Proof.
  intros Hm Hf p e. unfold map_err. specialize (Hm p e).
  destruct (m p e) as [[o q] s], (m' p e) as [[o' q'] s']. cbn in Hm. destruct Hm as (-> & -> & Hm).
  destruct o, o'; try contradiction; cbn; auto.
Qed.
Lemma al_local {E X Y A B} (err : X -> Y -> Prop) (val : A -> B -> Prop) p0 (m : M E X A) (m' : M E Y B) :
  alike2 err val m m' -> alike2 err (fun a b => val (fst a) (fst b) /\ snd a = snd b) (at_local p0 m) (at_local p0 m').
Proof.
  intros Hm p e. unfold at_local. specialize (Hm p0 e).
  destruct (m p0 e) as [[o q] s], (m' p0 e) as [[o' q'] s']. cbn in Hm. destruct Hm as (-> & -> & Hm).
  destruct o, o'; try contradiction; cbn; auto.
Qed.
Definition either {A B X Y} (val : A -> B -> Prop) (err : X -> Y -> Prop) (a : A + X) (b : B + Y) : Prop :=
  match a, b with inl u, inl v => val u v | inr u, inr v => err u v | _, _ => False end.
Lemma al_catch {E X Y X' Y' A B} (err : X -> Y -> Prop) (val : A -> B -> Prop) (err' : X' -> Y' -> Prop) (m : M E X A) (m' : M E Y B) :
  alike2 err val m m' ->
  alike2 err' (either val err) (catch m) (catch m').
Proof.
  intros Hm p e. unfold catch. specialize (Hm p e).
  destruct (m p e) as [[o q] s], (m' p e) as [[o' q'] s']. cbn in Hm. destruct Hm as (-> & -> & Hm).
  destruct o, o'; try contradiction; cbn; auto.
Qed.
Lemma al_sub {E X Y A B} (err : X -> Y -> Prop) (val val' : A -> B -> Prop) (m : M E X A) (m' : M E Y B) :
  alike2 err val m m' -> (forall a b, val a b -> val' a b) -> alike2 err val' m m'.
Proof.
  intros Hm Hs p e. specialize (Hm p e). destruct (m p e) as [[o q] s], (m' p e) as [[o' q'] s']. cbn in *.
  destruct Hm as (-> & -> & Hm). destruct o, o'; auto.
Qed.
Lemma al_panic {E X Y A B} (err : X -> Y -> Prop) (val : A -> B -> Prop) : alike2 (E := E) err val panic panic.
Proof. intros p e. cbn. auto. Qed.

Section One.
Variables (m14 : metadata_v14) (m15 : metadata_v15).
Hypothesis one : one_runtime m14 m15.
Let m := metadata_of_v14 m14.
Let m' := metadata_of_v15 m15.

Lemma one_registry : m_types m' = m_types m.
Proof. unfold m, m', metadata_of_v14, metadata_of_v15. cbn [m_types]. rewrite (one_types _ _ one). reflexivity. Qed.

Lemma mark_one b : alike2 (E := unit) same_error eq (mark (ME := version_err) b) (mark (ME := v14_err) b).
Proof.
  unfold mark. apply al_bind with (val := eq).
  - apply al_map with (err := eq); [apply al_refl|]. intros; constructor.
  - intros [l c] ? <-. apply al_bind with (val := either eq eq).
    + apply (al_catch (E := unit) eq eq same_error). apply al_refl.
    + intros [?|?] [?|?] ?; try contradiction; [apply al_ret; reflexivity|apply al_fail; constructor].
Qed.

Lemma extensions_one b g : alike2 same_error eq (decode_extensions_unmarked b m' g) (decode_extensions_unmarked b m g).
Proof.
  unfold decode_extensions_unmarked.
  replace (m_signed_extensions m') with (inl (v14_signed_extensions m14) : list ext_meta + version_err)
    by (unfold m', metadata_of_v15; cbn; rewrite (one_extensions _ _ one); reflexivity).
  replace (m_signed_extensions m) with (inl (v14_signed_extensions m14) : list ext_meta + v14_err) by reflexivity.
  apply al_bind with (val := eq).
  - apply al_map with (err := fun _ _ => False); [apply al_ret; reflexivity|intros ? ? []].
  - intros l ? <-. rewrite one_registry. apply al_bind with (val := eq).
    + apply al_map with (err := eq); [apply al_refl|]. intros ? ? <-. constructor.
    + intros xs ? <-. apply al_bind with (val := eq).
      { intros p e. cbn. auto. }
      intros p ? <-. destruct (negb _); [apply al_fail; constructor|].
      apply al_bind with (val := eq).
      * apply al_map with (err := fun x y => y = V14Version x).
        -- unfold m, m', metadata_of_v14, metadata_of_v15. cbn [m_spec_name_version]. rewrite (one_types _ _ one), (one_pallets _ _ one).
           destruct (spec_name_version_of _ _); cbn [sum_map lift]; [apply al_ret; reflexivity|apply al_fail; reflexivity].
        -- intros x y ->. constructor.
      * intros nv ? <-. apply al_bind with (val := eq); [|intros ? ? <-; apply al_ret; reflexivity].
        unfold check_extensions. destruct (collect_loop _ _) as [c|x]; [|apply al_fail; constructor].
        destruct (co_version c) as [v|]; [|apply al_fail; constructor].
        destruct (negb _); [apply al_fail; constructor|].
        destruct (co_genesis c) as [gh|]; [|apply al_fail; constructor].
        destruct g as [g'|]; [destruct (bytes_eqb gh g') |]; try (apply al_fail; constructor).
        all: destruct (co_era c) as [[|]|], (co_block c) as [bl|]; try (apply al_ret; reflexivity).
        all: destruct (bytes_eqb gh bl); [apply al_ret; reflexivity|apply al_fail; constructor].
Qed.

Lemma extensions_marked_one b mk g : alike2 same_error eq (decode_extensions b mk m' g) (decode_extensions b mk m g).
Proof.
  unfold decode_extensions. apply al_bind with (val := fun a b => fst a = fst b /\ snd a = snd b).
  - apply al_local with (val := eq). apply extensions_one.
  - intros [? ?] [? ?] [H _]. cbn in H. subst. apply al_ret. reflexivity.
Qed.

Section Params.
Hypothesis same_params : v14_type_params m14 = inl (v15_params m15).

Lemma call_one b : alike2 same_error eq (decode_as_call_unmarked b m') (decode_as_call_unmarked b m).
Proof.
  unfold decode_as_call_unmarked. apply al_bind with (val := eq).
  - apply al_map with (err := fun _ _ => False); [|intros ? ? []].
    unfold m, m', metadata_of_v14, metadata_of_v15. cbn [m_call_ty]. rewrite same_params. cbn [sum_map lift]. apply al_ret. reflexivity.
  - intros i ? <-. rewrite one_registry. apply al_bind with (val := eq).
    + apply al_map with (err := eq); [apply al_refl|]. intros ? ? <-. constructor.
    + intros x ? <-. destruct (x_data x); try (apply al_fail; constructor). apply al_ret. reflexivity.
Qed.

Lemma call_marked_one b mk : alike2 same_error eq (decode_as_call b mk m') (decode_as_call b mk m).
Proof.
  unfold decode_as_call, data_no_extensions. destruct (limit_length b _) as [d|]; [|apply al_panic].
  apply al_bind with (val := fun a b => fst a = fst b /\ snd a = snd b).
  - apply al_local with (val := eq). apply call_one.
  - intros [c p] [? ?] [H1 H2]. cbn in H1, H2. subst. destruct (Nat.eqb _ _); [apply al_ret; reflexivity|apply al_fail; constructor].
Qed.

Lemma transaction_one b g : alike2 same_error same_parsed (parse_transaction b m' g) (parse_transaction b m g).
Proof.
  unfold parse_transaction. apply al_bind with (val := eq); [apply mark_one|]. intros mk ? <-.
  apply al_bind with (val := eq); [apply extensions_marked_one|]. intros xs ? <-.
  apply al_bind with (val := either eq same_error).
  - apply (al_catch (E := unit) same_error eq same_error). apply call_marked_one.
  - intros [c|x] [c'|y] H; cbn in H; try contradiction; apply al_ret; [subst|]; constructor. exact H.
Qed.

Lemma unmarked_one b g : alike2 same_error eq (parse_transaction_unmarked b m' g) (parse_transaction_unmarked b m g).
Proof.
  unfold parse_transaction_unmarked. apply al_bind with (val := fun a b => fst a = fst b /\ snd a = snd b).
  - apply al_local with (val := eq). apply al_bind with (val := eq); [apply call_one|]. intros c ? <-.
    apply al_bind with (val := eq); [apply extensions_one|]. intros xs ? <-. apply al_ret. reflexivity.
  - intros [? ?] [? ?] [H _]. cbn in H. subst. apply al_ret. reflexivity.
Qed.

Lemma parsed_one {A} (d : M unit parser_err A) : alike2 same_unchecked_error eq (map_err UParsing d) (map_err UParsing d).
Proof. apply al_map with (err := eq); [apply al_refl|]. intros ? ? <-. constructor. Qed.

Lemma unchecked_one b : alike2 same_unchecked_error eq (decode_as_unchecked_extrinsic b m') (decode_as_unchecked_extrinsic b m).
Proof.
  unfold decode_as_unchecked_extrinsic. apply al_bind with (val := fun a b => fst a = fst b /\ snd a = snd b).
  2: { intros [? ?] [? ?] [H _]. cbn in H. subst. apply al_ret. reflexivity. }
  apply al_local with (val := eq). unfold decode_unchecked_body. apply al_bind with (val := eq).
  { apply al_map with (err := fun _ _ => False); [|intros ? ? []].
    unfold m, m', metadata_of_v14, metadata_of_v15. cbn [m_extrinsic_type_params]. rewrite same_params. cbn [lift]. apply al_ret. reflexivity. }
  intros ps ? <-. rewrite one_registry. cbv zeta. apply al_bind with (val := eq).
  { apply al_map with (err := eq); [apply al_refl|]. intros. constructor. }
  intros l ? <-. apply al_bind with (val := eq); [intros p e; cbn; auto|]. intros st ? <-.
  destruct (_ <? _)%N; [apply al_fail; constructor|]. destruct (_ <? _)%N; [apply al_fail; constructor|].
  apply al_bind with (val := eq); [apply parsed_one|]. intros vb ? <-.
  apply al_bind with (val := eq); [intros p e; cbn; auto|]. intros [] [] _.
  apply al_bind with (val := eq).
  { apply al_map with (err := fun _ _ => False); [|intros ? ? []].
    unfold m, m', metadata_of_v14, metadata_of_v15. cbn [m_extrinsic_version lift]. rewrite (one_version _ _ one). apply al_ret. reflexivity. }
  intros v ? <-. destruct (negb _); [apply al_fail; constructor|]. destruct (_ =? 0)%N.
  - apply al_bind with (val := eq); [apply parsed_one|]. intros x ? <-.
    destruct (x_data x); try (apply al_fail; constructor). apply al_ret. reflexivity.
  - do 3 (apply al_bind with (val := eq); [apply parsed_one|]; intros ? ? <-).
    apply al_bind with (val := eq); [apply parsed_one|]. intros x ? <-.
    destruct (x_data x); try (apply al_fail; constructor). apply al_ret. reflexivity.
Qed.
End Params.

(** Without usable parameters. *)
Section NoParams.
Variable x : v14_err.
Hypothesis no_params : v14_type_params m14 = inr x.

Lemma call_none b p e : decode_as_call_unmarked b m p e = (Err (MetaStructure x), p, e).
Proof. unfold decode_as_call_unmarked, m, metadata_of_v14. cbn [m_call_ty]. rewrite no_params. reflexivity. Qed.

Lemma unmarked_none b g p e : parse_transaction_unmarked b m g p e = (Err (MetaStructure x), p, e).
Proof. unfold parse_transaction_unmarked, bind, at_local. rewrite call_none. reflexivity. Qed.

Lemma call_marked_none b mk p e r q e' : decode_as_call b mk m p e = (r, q, e') ->
  r = Panic \/ r = Err (MetaStructure x).
Proof.
  unfold decode_as_call, data_no_extensions. destruct (limit_length b _) as [d|]; [|cbn; intros [= <- _ _]; auto].
  unfold bind, at_local. rewrite call_none. intros [= <- _ _]. auto.
Qed.

Lemma unchecked_none b p e : decode_as_unchecked_extrinsic b m p e = (Err (UMetaStructure x), p, e).
Proof.
  unfold decode_as_unchecked_extrinsic, bind, at_local, decode_unchecked_body, bind, m, metadata_of_v14.
  cbn [m_extrinsic_type_params]. rewrite no_params. reflexivity.
Qed.
End NoParams.
End One.

(** From computations to answers. *)
Lemma answer_alike {X Y A B} (err : X -> Y -> Prop) (val : A -> B -> Prop) (m : M unit X A) (m' : M unit Y B) :
  alike2 err val m m' -> SpecSource.returns (ApiSign.result m') -> same_answer err val (ApiSign.result m) (ApiSign.result m').
Proof.
  intros H Hr. specialize (H 0 tt). unfold ApiSign.result in *. destruct H as (_ & _ & H).
  destruct (fst (fst (m 0 tt))) as [a|x| |], (fst (fst (m' 0 tt))) as [b|y| |]; try contradiction; try (constructor; exact H).
  all: destruct Hr as [[? Hr]|[? Hr]]; discriminate Hr.
Qed.

Lemma transaction_none m14 m15 (one : one_runtime m14 m15) x : v14_type_params m14 = inr x -> forall data g,
  SpecSource.returns (fst (fst (parse_transaction (slice_buffer data) (metadata_of_v14 m14) g 0 tt))) ->
  SpecSource.returns (fst (fst (parse_transaction (slice_buffer data) (metadata_of_v15 m15) g 0 tt))) ->
  same_answer same_error (fun t t' => tp_extensions t = tp_extensions t' /\ tp_call t' = inr (MetaStructure x))
    (ApiSign.result (parse_transaction (slice_buffer data) (metadata_of_v15 m15) g))
    (ApiSign.result (parse_transaction (slice_buffer data) (metadata_of_v14 m14) g)).
Proof.
  intros Hp data g R1 R2. unfold ApiSign.result. unfold parse_transaction in *. unfold bind in *.
  pose proof (mark_one (slice_buffer data) 0 tt) as H.
  destruct (mark (ME := version_err) (slice_buffer data) 0 tt) as [[o q] s], (mark (ME := v14_err) (slice_buffer data) 0 tt) as [[o' q'] s'].
  cbn [fst snd] in H. destruct H as (-> & -> & H). destruct o as [mk|a| |], o' as [mk'|a'| |]; try contradiction;
    cbn [fst] in *; try (constructor; exact H); try (destruct R1 as [[? R1]|[? R1]]; discriminate R1).
  subst mk'. pose proof (extensions_marked_one m14 m15 one (slice_buffer data) mk g q' s') as H.
  destruct (decode_extensions (slice_buffer data) mk (metadata_of_v15 m15) g q' s') as [[o q] s],
    (decode_extensions (slice_buffer data) mk (metadata_of_v14 m14) g q' s') as [[o' q''] s''].
  cbn [fst snd] in H. destruct H as (-> & -> & H). destruct o as [xs|a| |], o' as [xs'|a'| |]; try contradiction;
    cbn [fst] in *; try (constructor; exact H); try (destruct R1 as [[? R1]|[? R1]]; discriminate R1).
  subst xs'. unfold catch in *.
  destruct (decode_as_call (slice_buffer data) mk (metadata_of_v14 m14) q'' s'') as [[o q] s] eqn:E.
  pose proof (call_marked_none m14 x Hp _ _ _ _ _ _ _ E) as [-> | ->]; cbn [fst] in *.
  { destruct R1 as [[? R1]|[? R1]]; discriminate R1. }
  destruct (decode_as_call (slice_buffer data) mk (metadata_of_v15 m15) q'' s'') as [[o' q0] s0].
  destruct o'; cbn [fst] in *; unfold ret; cbn [fst]; try (destruct R2 as [[? R2]|[? R2]]; discriminate R2).
  all: constructor; split; reflexivity.
Qed.
