(** C55 for storage entries, calls and unchecked extrinsics. *)
From Verif Require Import Base Compact Types Indicators Decode Sign Unchecked Storage Spec SpecRename SpecRename2 ProofSim ProofRename.
Local Open Scope list_scope.

Lemma sim_local {E X A B} (R : A -> B -> Prop) p0 (m1 : M E X A) (m2 : M E X B) : sim R m1 m2 ->
  sim (fun x y => R (fst x) (fst y) /\ snd x = snd y) (at_local p0 m1) (at_local p0 m2).
Proof.
  intros H p e. specialize (H p0 e). unfold at_local, alike in *.
  destruct (m1 p0 e) as [[o1 q1] e1], (m2 p0 e) as [[o2 q2] e2]. cbn [fst snd] in H.
  destruct H as (-> & -> & H). destruct o1, o2; cbn in *; try contradiction; repeat split; auto.
Qed.

Section Names.
Context {E : Type}.
Variable g : reading.
Variable ty1 ty2 : list ty.
Hypothesis Hty : same_types g ty1 ty2.
Local Notation r1 := (@portable E ty1).
Local Notation r2 := (@portable E ty2).
Local Notation same f := (fun x y => f x = f y).
Local Notation xr := (same (fun x => bare g (x_data x))).

Lemma sim_type (b : buffer E) id P : sim xr (decode_with_type b r1 (Symbol id) P) (decode_with_type b r2 (Symbol id) P).
Proof.
  intros p e. unfold decode_with_type, decode_fuel. rewrite (reg_bound_same g ty1 ty2 Hty).
  apply (decode_dr g b ty1 ty2 Hty); [reflexivity|apply same_but_refl].
Qed.

Section Key.
Variable blake2_128 twox_64 : bytes -> bytes.
Variable b : buffer E.

Lemma part_sim h id : sim (same (bare_part g)) (key_part_decode blake2_128 twox_64 h id b r1) (key_part_decode blake2_128 twox_64 h id b r2).
Proof.
  assert (Hcut : forall len k, sim (same (bare_part g)) (cut_hash len k id b) (cut_hash len k id b)) by (intros; apply sim_same; reflexivity).
  assert (Hcheck : forall len hash, sim (same (bare_part g)) (check_hash len hash id b r1) (check_hash len hash id b r2)).
  { intros len hash. unfold check_hash. eapply sim_bind; [apply sim_eq|]. intros p ? <-. eapply sim_bind; [apply sim_eq|]. intros s ? <-.
    destruct (_ =? _)%N; [|apply sim_same; reflexivity]. cbv zeta. eapply sim_bind; [apply sim_eq|]. intros _ _ _.
    eapply sim_bind; [apply sim_map_err, sim_type|]. intros x1 x2 Hx. eapply sim_bind; [apply sim_eq|]. intros q ? <-.
    eapply sim_bind; [apply sim_eq|]. intros c ? <-. destruct c as [c|y]; [|intros ? ?; repeat split].
    destruct (bytes_eqb s (hash c)); [|apply sim_fail]. apply sim_ret. cbn [bare_part]. unfold bare_ext. rewrite Hx. reflexivity. }
  destruct h; cbn [key_part_decode]; try apply Hcut; try apply Hcheck.
  eapply sim_bind; [apply sim_map_err, sim_type|]. intros x1 x2 Hx. apply sim_ret. cbn [bare_part]. unfold bare_ext. rewrite Hx. reflexivity.
Qed.
Lemma parts_sim hs : forall ids, sim (same (map (bare_part g))) (key_parts blake2_128 twox_64 hs ids b r1) (key_parts blake2_128 twox_64 hs ids b r2).
Proof.
  induction hs as [|h hs IH]; intros [|id ids]; cbn [key_parts]; try (apply sim_ret; reflexivity).
  eapply sim_bind; [apply part_sim|]. intros x1 x2 Hx. eapply sim_bind; [apply IH|]. intros l1 l2 Hl. apply sim_ret.
  cbn [map]. rewrite Hx, Hl. reflexivity.
Qed.
Lemma key_sim hs id start : sim (same (bare_key g)) (process_key_mapped blake2_128 twox_64 hs id b start r1) (process_key_mapped blake2_128 twox_64 hs id b start r2).
Proof.
  unfold process_key_mapped. eapply sim_bind; [apply sim_local with (R := same (bare_key g))|].
  2: { intros [x1 q1] [x2 q2] [H _]. apply sim_ret. exact H. }
  unfold process_key_body. eapply sim_bind with (R := same (bare_key g)).
  2: { intros k1 k2 Hk. eapply sim_bind; [apply sim_eq|]. intros q ? <-. destruct (Nat.eqb _ _); [apply sim_ret, Hk|apply sim_fail]. }
  assert (Hmany : sim (same (bare_key g))
      (do t <- map_err (fun x => ParsingKey (PRegistry x)) (resolve_ty r1 id);
        match t_def t with
        | TTuple elems =>
            if Nat.eqb (List.length elems) (List.length hs) then
              do content <- key_parts blake2_128 twox_64 hs elems b r1;
              ret (KTuple content (info_from_ty t))
            else fail MultipleHashesNumberMismatch
        | _ => fail MultipleHashesNotATuple
        end)
      (do t <- map_err (fun x => ParsingKey (PRegistry x)) (resolve_ty r2 id);
        match t_def t with
        | TTuple elems =>
            if Nat.eqb (List.length elems) (List.length hs) then
              do content <- key_parts blake2_128 twox_64 hs elems b r2;
              ret (KTuple content (info_from_ty t))
            else fail MultipleHashesNumberMismatch
        | _ => fail MultipleHashesNotATuple
        end)).
  { eapply sim_bind; [apply sim_map_err, (resolve_tr g ty1 ty2 Hty)|]. intros t1 t2 [_ Ht].
    destruct (t_def t1), (t_def t2); cbn [same_shape] in Ht; try contradiction; try discriminate Ht; try apply sim_fail.
    injection Ht as ->. destruct (Nat.eqb _ _); [|apply sim_fail].
    eapply sim_bind; [apply parts_sim|]. intros l1 l2 Hl. apply sim_ret. cbn [bare_key]. rewrite Hl. reflexivity. }
  destruct hs as [|h [|h2 hs]]; try exact Hmany.
  eapply sim_bind; [apply part_sim|]. intros x1 x2 Hx. apply sim_ret. cbn [bare_key]. rewrite Hx. reflexivity.
Qed.
End Key.

Lemma all_m_sim (b : buffer E) id : sim xr (decode_all_m b r1 id) (decode_all_m b r2 id).
Proof.
  unfold decode_all_m. eapply sim_bind; [apply sim_local with (R := xr)|].
  2: { intros [x1 q1] [x2 q2] [H _]. apply sim_ret. exact H. }
  unfold decode_all_body. eapply sim_bind; [apply sim_eq|]. intros _ _ _.
  eapply sim_bind; [apply sim_type|]. intros x1 x2 Hx. eapply sim_bind; [apply sim_eq|]. intros q ? <-.
  destruct (Nat.eqb _ _); [apply sim_ret, Hx|apply sim_fail].
Qed.

Lemma storage_sim blake2_128 twox_64 (b v : buffer E) entry :
  sim (same (bare_storage g)) (decode_as_storage_entry blake2_128 twox_64 b v entry r1) (decode_as_storage_entry blake2_128 twox_64 b v entry r2).
Proof.
  unfold decode_as_storage_entry. cbv zeta. destruct (Nat.ltb _ _); [apply sim_fail|].
  assert (Hv : forall k1 k2 id docs, bare_key g k1 = bare_key g k2 -> sim (same (bare_storage g))
    (do value <- map_err ParsingValue (decode_all_m v r1 id); ret (Storage k1 value docs))
    (do value <- map_err ParsingValue (decode_all_m v r2 id); ret (Storage k2 value docs))).
  { intros k1 k2 id docs Hk. eapply sim_bind; [apply sim_map_err, all_m_sim|]. intros x1 x2 Hx. apply sim_ret.
    unfold bare_storage, bare_ext. cbn [st_key st_value st_docs]. rewrite Hk, Hx. reflexivity. }
  destruct (en_ty entry) as [id|hs kid vid].
  - destruct (negb _); [apply sim_fail|]. apply Hv. reflexivity.
  - eapply sim_bind; [apply key_sim|]. intros k1 k2 Hk. apply Hv, Hk.
Qed.

Lemma call_shape d1 d2 : bare g d1 = bare g d2 ->
  match d1, d2 with DCall c1, DCall c2 => bare g (DCall c1) = bare g (DCall c2) | DCall _, _ | _, DCall _ => False | _, _ => True end.
Proof.
  intros H. destruct d1, d2; try exact I; try exact H; exfalso; cbn [bare] in H;
  repeat match type of H with context [match ?x with _ => _ end] => destruct x end; discriminate H.
Qed.

Section Sign.
Context {ME : Type}.
Variable m1 m2 : metadata E ME.
Hypothesis H1 : m_types m1 = r1.
Hypothesis H2 : m_types m2 = r2.

Lemma call_sim (b : buffer E) : m_call_ty m1 = m_call_ty m2 ->
  sim (same (fun c => bare g (DCall c))) (decode_as_call_unmarked b m1) (decode_as_call_unmarked b m2).
Proof.
  intros Hc. unfold decode_as_call_unmarked. rewrite Hc, H1, H2. eapply sim_bind; [apply sim_eq|]. intros id ? <-.
  eapply sim_bind; [apply sim_map_err, sim_type|]. intros x1 x2 Hx. apply call_shape in Hx.
  destruct (x_data x1), (x_data x2); try contradiction; try apply sim_fail. apply sim_ret, Hx.
Qed.
Lemma marked_call_sim (b : buffer E) mk : m_call_ty m1 = m_call_ty m2 ->
  sim (same (fun c => bare g (DCall c))) (decode_as_call b mk m1) (decode_as_call b mk m2).
Proof.
  intros Hc. unfold decode_as_call, data_no_extensions. destruct (limit_length b _); [|intros ? ?; repeat split].
  eapply sim_bind; [apply sim_local, call_sim, Hc|]. intros [c1 q1] [c2 q2] [H Hq]. cbn [fst snd] in *. subst q2.
  destruct (Nat.eqb _ _); [apply sim_ret, H|apply sim_fail].
Qed.

Lemma unchecked_sim (b : buffer E) : m_extrinsic_type_params m1 = m_extrinsic_type_params m2 -> m_extrinsic_version m1 = m_extrinsic_version m2 ->
  sim (same (bare_unchecked g)) (decode_as_unchecked_extrinsic b m1) (decode_as_unchecked_extrinsic b m2).
Proof.
  intros Hp Hv. unfold decode_as_unchecked_extrinsic. eapply sim_bind; [apply sim_local with (R := same (bare_unchecked g))|].
  2: { intros [x1 q1] [x2 q2] [H _]. apply sim_ret. exact H. }
  unfold decode_unchecked_body. rewrite Hp, Hv, H1, H2. eapply sim_bind; [apply sim_eq|]. intros ps ? <-. cbv zeta.
  eapply sim_bind; [apply sim_eq|]. intros n ? <-. eapply sim_bind; [apply sim_eq|]. intros s ? <-.
  destruct (_ <? _)%N; [apply sim_fail|]. destruct (_ <? _)%N; [apply sim_fail|].
  eapply sim_bind; [apply sim_eq|]. intros v ? <-. eapply sim_bind; [apply sim_eq|]. intros _ _ _.
  eapply sim_bind; [apply sim_eq|]. intros ver ? <-. destruct (negb _); [apply sim_fail|].
  assert (Hat : forall id, sim xr (@map_err E _ (unchecked_err ME) _ UParsing (decode_as_type_at_position b r1 id))
     (map_err UParsing (decode_as_type_at_position b r2 id))) by (intros; apply sim_map_err, sim_type).
  destruct (_ =? _)%N.
  - eapply sim_bind; [apply Hat|]. intros x1 x2 Hx. apply call_shape in Hx.
    destruct (x_data x1), (x_data x2); try contradiction; try apply sim_fail. apply sim_ret. unfold bare_unchecked. rewrite Hx. reflexivity.
  - eapply sim_bind; [apply Hat|]. intros a1 a2 Ha. eapply sim_bind; [apply Hat|]. intros g1 g2 Hg.
    eapply sim_bind; [apply Hat|]. intros t1 t2 Ht. eapply sim_bind; [apply Hat|]. intros x1 x2 Hx. apply call_shape in Hx.
    destruct (x_data x1), (x_data x2); try contradiction; try apply sim_fail. apply sim_ret. unfold bare_unchecked, bare_ext.
    rewrite Hx, Ha, Hg, Ht. reflexivity.
Qed.
End Sign.
End Names.
