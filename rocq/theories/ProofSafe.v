(** Runs over any well-behaved source: positions, panics, recursion depth and the meaning
    of the cyclic-metadata error (C05, C09, C10, C11). *)
From Coq Require Import Lia ZifyBool ZifyNat ZifyN Relations.
From Verif Require Import Base Compact Types Indicators Decode Spec ProofBase ProofTables ProofPeel SpecSource.
Local Open Scope list_scope.

Section Safe.
Context {E : Type}.
Variable b : buffer E.
Variable r : registry E.
Hypothesis Hb : good_buffer b.
Hypothesis Hr : good_registry r.

Notation L := (total_len b).
Notation R := (reg_bound r).
Notation known := (known r).
Notation holds := (holds r).

Definition post {X A} (XP : X -> Prop) (Q : A -> nat -> Prop) (p : nat)
    (x : outcome X A * nat * E) : Prop :=
  let '(o, q, _) := x in
  (p <= q <= Nat.max p L)%nat /\
  match o with Ok a => Q a q | Err x => XP x | Panic => False | OutOfFuel => False end.

Definition any {A} (_ : A) (_ : nat) : Prop := True.

Lemma post_bind {X A B} (XP : X -> Prop) (Q : A -> nat -> Prop) (Q2 : B -> nat -> Prop)
    (m : M E X A) f p e :
  post XP Q p (m p e) ->
  (forall a q e', (p <= q <= Nat.max p L)%nat -> Q a q -> post XP Q2 q (f a q e')) ->
  post XP Q2 p (bind m f p e).
Proof.
  unfold bind, post. destruct (m p e) as [[[a|x| |] q] e1]; intros [H1 H2] H; try tauto.
  specialize (H a q e1 H1 H2). destruct (f a q e1) as [[o q2] e2]. destruct H as [H3 H4].
  split; [lia|exact H4].
Qed.

Lemma post_imp {X A} (XP : X -> Prop) (Q Q2 : A -> nat -> Prop) p x :
  post XP Q p x -> (forall a q, Q a q -> Q2 a q) -> post XP Q2 p x.
Proof. unfold post. destruct x as [[[a|y| |] q] e]; intros [H1 H2] H; split; auto. Qed.

Lemma post_any {X A} (XP : X -> Prop) (Q : A -> nat -> Prop) p x :
  post XP Q p x -> post XP any p x.
Proof. intros H. eapply post_imp; [exact H|]. intros; exact I. Qed.

Lemma post_ret {X A} (XP : X -> Prop) (Q : A -> nat -> Prop) (a : A) p e :
  Q a p -> post XP Q p (@ret E X A a p e).
Proof. intros H. cbn. split; [lia|exact H]. Qed.

Lemma post_fail {X A} (XP : X -> Prop) (Q : A -> nat -> Prop) (x : X) p e :
  XP x -> post XP Q p (@fail E X A x p e).
Proof. intros H. cbn. split; [lia|exact H]. Qed.

Lemma post_get {X} (XP : X -> Prop) p e : post XP (fun a q => a = p /\ q = p) p (@get_pos E X p e).
Proof. cbn. split; [lia|auto]. Qed.

Lemma post_set {X} (XP : X -> Prop) n p e : (p <= n <= Nat.max p L)%nat ->
  post XP (fun _ q => q = n) p (@set_pos E X n p e).
Proof. intros H. cbn. split; [lia|auto]. Qed.

Lemma post_map_err {X Y A} (XP : X -> Prop) (YP : Y -> Prop) (Q : A -> nat -> Prop) (g : X -> Y) m p e :
  post XP Q p (m p e) -> (forall x, XP x -> YP (g x)) -> post YP Q p (@map_err E X Y A g m p e).
Proof. unfold map_err, post. destruct (m p e) as [[[a|x| |] q] e1]; intros [H1 H2] H; auto. Qed.

Lemma post_lift {X A} (XP : X -> Prop) (Q : A -> nat -> Prop) (x : A + X) p e :
  match x with inl a => Q a p | inr y => XP y end -> post XP Q p (@lift E X A x p e).
Proof. destruct x; cbn; intros H; split; auto; lia. Qed.

Lemma post_catch {X Y A} (XP : X -> Prop) (YP : Y -> Prop) (Q : A -> nat -> Prop) m p e :
  post XP Q p (m p e) ->
  post YP (fun s q => match s with inl a => Q a q | inr x => XP x end) p (@catch E X Y A m p e).
Proof. unfold catch, post. destruct (m p e) as [[[a|x| |] q] e1]; intros [H1 H2]; auto. Qed.

(** *** Errors *)

Definition cyclic_ok (id : N) : Prop :=
  clos_trans N holds id id \/
  exists i e e', resolve r i e = (inr (RInternal (CyclicMetadata id)), e').

Definition xi (x : int_err) : Prop := forall id, x = CyclicMetadata id -> cyclic_ok id.
(** External errors come from the source. *)
Definition reg_fault (c : N) : Prop := exists i e e', resolve r i e = (inr (RExternal c), e').
Definition buf_fault (c : N) : Prop := exists p n e e', rd b p n e = (inr (BExternal c), e').
Definition xr (x : reg_err) : Prop :=
  (forall id, x = RInternal (CyclicMetadata id) -> cyclic_ok id) /\ (forall c, x = RExternal c -> reg_fault c).
Definition xp (x : parser_err) : Prop :=
  (forall id, x = PRegistry (RInternal (CyclicMetadata id)) -> cyclic_ok id) /\
  (forall c, x = PRegistry (RExternal c) -> reg_fault c) /\
  (forall c, x = PBuffer (BExternal c) -> buf_fault c).

Ltac noerr1 := let H := fresh in intros ? H; try discriminate H.
Ltac noerr := lazymatch goal with |- xi _ => noerr1 | |- xr _ => split; noerr1 | |- xp _ => split; [|split]; noerr1 | |- _ => noerr1 end.
Lemma xr_xp x : xr x -> xp (PRegistry x).
Proof. intros [H1 H2]. noerr; [apply H1|apply H2]; congruence. Qed.
Lemma xi_xp x : xi x -> xp (PRegistry (RInternal x)).
Proof. intros H. noerr. apply H. congruence. Qed.
Lemma xi_xr x : xi x -> xr (RInternal x).
Proof. intros H. noerr. apply H. congruence. Qed.
Hint Resolve xr_xp xi_xp xi_xr : core.

(** *** Primitive reads *)

Lemma read_slice_post q0 n p e :
  post xp (fun l q => q = p /\ N.of_nat (List.length l) = n /\ (q0 + List.length l <= L)%nat) p
    (read_slice b q0 n p e).
Proof.
  unfold read_slice. destruct (rd b q0 n e) as [[l|x] e'] eqn:H; unfold post; split; try lia.
  - apply Hb in H. tauto.
  - noerr. injection H0 as ->. do 4 eexists. exact H.
Qed.

Lemma read_byte_post q0 p e :
  post xp (fun _ q => q = p /\ (q0 + 1 <= L)%nat) p (read_byte b q0 p e).
Proof.
  unfold read_byte. eapply post_bind; [apply read_slice_post|].
  intros l q e' _ (-> & H1 & H2). destruct l as [|x [|y l]]; cbn [List.length] in *; try lia.
  apply post_ret. split; [reflexivity|lia].
Qed.

Lemma find_loop_post w position k : forall i p e, (position + i + k <= L)%nat ->
  post xp (fun o q => q = p /\ match o with Some (_, n) => position < n <= L | None => True end)%nat p
    (find_loop w b position k i p e).
Proof.
  induction k as [|k IH]; intros i p e H; cbn [find_loop].
  - apply post_ret. auto.
  - destruct (MAX_COMPACT_LEN <? i)%nat; [apply post_ret; auto|].
    eapply post_bind; [apply read_slice_post|].
    intros l q e' _ (-> & H1 & H2). destruct (compact_decode w l).
    + apply post_ret. split; [reflexivity|]. lia.
    + apply IH. lia.
Qed.

Lemma find_compact_post w position p e :
  post xp (fun x q => q = p /\ position < snd x <= L)%nat p (find_compact w b position p e).
Proof.
  unfold find_compact. destruct (L <? position)%nat eqn:H; [apply post_fail; noerr|].
  eapply post_bind; [apply find_loop_post; lia|].
  intros o q e' _ (-> & Ho). destruct o as [[x n]|].
  - apply post_ret. cbn [snd]. auto.
  - apply post_fail. noerr.
Qed.

Lemma get_compact_post w p e : post xp (fun _ q => p < q <= L)%nat p (get_compact w b p e).
Proof.
  unfold get_compact. eapply post_bind; [apply post_get|].
  intros a q e1 _ [-> ->]. eapply post_bind; [apply find_compact_post|].
  intros x q e2 _ [-> Hx]. eapply post_bind; [apply post_set; lia|].
  intros u q e3 _ ->. apply post_ret. exact Hx.
Qed.

Lemma read_exact_post n p e :
  post xp (fun l q => q = p /\ N.of_nat (List.length l) = n /\ (p + List.length l <= L)%nat) p
    (read_exact b n p e).
Proof.
  unfold read_exact. eapply post_bind; [apply post_get|].
  intros a q e1 _ [-> ->]. eapply post_bind; [apply read_slice_post|].
  intros l q e2 _ (-> & H1 & H2). rewrite H1, N.eqb_refl. apply post_ret. auto.
Qed.

Lemma cut_and_decode_post {A} n name (f : bytes -> option A) p e :
  post xp any p (cut_and_decode b n name f p e).
Proof.
  unfold cut_and_decode. eapply post_bind; [apply post_get|].
  intros a q e1 _ [-> ->]. eapply post_bind; [apply read_exact_post|].
  intros l q e2 _ (-> & H1 & H2). destruct (f l); [|apply post_fail; noerr].
  eapply post_bind; [|intros; apply post_ret; exact I].
  unfold shift_pos. eapply post_bind; [apply post_get|].
  intros a2 q e3 _ [-> ->]. eapply post_any. apply post_set. lia.
Qed.

Lemma reject_compact_post c p e : post xp any p (@reject_compact_m E c p e).
Proof.
  unfold reject_compact_m, reject_compact. eapply post_map_err with (XP := xi); [|auto].
  apply post_lift. destruct (compact_at c); [noerr|exact I].
Qed.

Lemma block_compact_post {A} c (m : M E parser_err A) Q p e :
  post xp Q p (m p e) -> post xp Q p (block_compact c m p e).
Proof. unfold block_compact. destruct (compact_at c); [intros _; apply post_fail; noerr|auto]. Qed.

Ltac pbind := eapply post_bind; [|let a := fresh "a" in let q := fresh "q" in
                                  let e := fresh "e" in intros a q e ? ?].
Ltac leaf := apply post_ret; exact I.

Lemma special_case_era_post p e : post xp any p (special_case_era b p e).
Proof.
  unfold special_case_era. eapply post_bind; [apply post_get|].
  intros a q e1 _ [-> ->]. eapply post_bind; [apply read_slice_post|].
  intros l1 q e2 _ (-> & H1 & H2). destruct (era_decode_all l1).
  - eapply post_bind; [apply post_set; lia|]. intros; leaf.
  - eapply post_bind; [apply read_slice_post|].
    intros l2 q e3 _ (-> & H3 & H4). destruct (era_decode_all l2).
    + eapply post_bind; [apply post_set; lia|]. intros; leaf.
    + apply post_fail. noerr.
Qed.

Lemma decode_str_post h p e : post xp any p (decode_str b h p e).
Proof.
  unfold decode_str. eapply post_bind; [apply post_get|].
  intros a q e1 _ [-> ->]. eapply post_bind; [apply find_compact_post|].
  intros [n s] q e2 _ [-> Hs]. cbn [snd] in Hs.
  eapply post_bind; [apply read_slice_post|].
  intros l q e3 _ (-> & H1 & H2). destruct (utf8_valid l); [|apply post_fail; noerr].
  eapply post_bind; [apply post_set; lia|]. intros; leaf.
Qed.

Lemma decode_primitive_post x c p e : post xp any p (decode_primitive b x c p e).
Proof.
  destruct x; cbn [decode_primitive].
  - apply block_compact_post. pbind; [apply cut_and_decode_post|leaf].
  - apply block_compact_post. pbind; [apply cut_and_decode_post|leaf].
  - pbind; [apply reject_compact_post|apply decode_str_post].
  - unfold parse_uint. pbind; [|leaf].
    destruct (compact_at c); [eapply post_any, get_compact_post|apply cut_and_decode_post].
  - apply block_compact_post. pbind; [apply cut_and_decode_post|leaf].
  - apply block_compact_post. pbind; [apply cut_and_decode_post|leaf].
  - apply block_compact_post. pbind; [apply cut_and_decode_post|leaf].
Qed.

Lemma parse_per_post k c p e : post xp any p (parse_per b k c p e).
Proof.
  unfold parse_per. eapply post_bind with (Q := any); [|intros; leaf]. destruct (compact_at c).
  - pbind; [eapply post_any, get_compact_post|leaf].
  - apply cut_and_decode_post.
Qed.

Lemma parse_fixed_post k c p e : post xp any p (parse_fixed b k c p e).
Proof. apply block_compact_post. pbind; [apply cut_and_decode_post|leaf]. Qed.

Lemma h256_post s p e : post xp any p (special_case_h256 b s p e).
Proof. unfold special_case_h256. pbind; [apply cut_and_decode_post|leaf]. Qed.

(** *** Registry *)

Lemma resolve_post id p e :
  post xr (fun t q => q = p /\ known id t) p (resolve_ty r id p e).
Proof.
  unfold resolve_ty. destruct (resolve r id e) as [[t|x] e'] eqn:H; unfold post; split; try lia.
  - split; [reflexivity|]. exists e, e'. exact H.
  - split; intros i Hx; subst x; [right; eauto|]. do 3 eexists. exact H.
Qed.

Lemma NoDup_app_one (l : list N) j : NoDup l -> ~ In j l -> NoDup (l ++ [j]).
Proof.
  intros H1 H2. apply (NoDup_Add (a := j) (l := l)).
  - rewrite <- (app_nil_r l) at 1. apply Add_app.
  - auto.
Qed.

Lemma known_lt id t : known id t -> (id < N.of_nat R)%N.
Proof. intros (e & e' & H). exact (Hr _ _ _ _ H). Qed.

(** *** Cycle lists *)

Fixpoint linked (l : list N) : Prop :=
  match l with
  | a :: ((c :: _) as rest) => holds a c /\ linked rest
  | _ => True
  end.

Lemma linked_app l a c : linked (l ++ [a]) -> holds a c -> linked (l ++ [a; c]).
Proof.
  induction l as [|x l IH]; cbn [app linked]; [auto|].
  destruct l as [|y l]; cbn [app linked] in *; intuition.
Qed.

Lemma linked_reach l a x : linked (l ++ [a]) -> In x (l ++ [a]) -> x = a \/ clos_trans N holds x a.
Proof.
  revert x; induction l as [|y l IH]; intros x; cbn [app In].
  - intros _ [->|[]]. auto.
  - intros Hl [->|Hin].
    + right. destruct l as [|z l]; cbn [app linked] in *.
      * apply t_step. tauto.
      * destruct Hl as [H1 H2]. destruct (IH z H2 (or_introl eq_refl)) as [-> |H3].
        -- apply t_step. exact H1.
        -- eapply t_trans; [apply t_step; exact H1|exact H3].
    + apply IH; [|exact Hin]. destruct l; cbn [app linked] in *; [exact I|tauto].
Qed.

Definition inv (id : N) (cyc : list N) : Prop :=
  cyc = [] \/ exists l, cyc = l ++ [id] /\ linked cyc /\ NoDup cyc /\
              Forall (fun i => i < N.of_nat R)%N l.

Lemma inv_length id t cyc : inv id cyc -> known id t -> (List.length cyc <= R)%nat.
Proof.
  intros [-> |(l & -> & _ & Hn & Hf)] Hk; [cbn; lia|].
  apply ids_bound; [exact Hn|]. apply Forall_app. split; [exact Hf|].
  constructor; [|constructor]. exact (known_lt _ _ Hk).
Qed.

Lemma check_post id t c j : inv id (cycle_check c) -> known id t -> holds id j ->
  match check_id c j with
  | inl c1 => inv j (cycle_check c1) /\ cycle_check c1 = cycle_check c ++ [j]
  | inr x => xi x
  end.
Proof.
  intros Hi Hk Hh. unfold check_id. destruct (existsb (N.eqb j) (cycle_check c)) eqn:He.
  - apply existsb_exists in He. destruct He as (x & Hx & Hj). apply N.eqb_eq in Hj. subst x.
    intros i Heq. injection Heq as <-. left. destruct Hi as [Hi |(l & Hl & Hlk & _)].
    + rewrite Hi in Hx. destruct Hx.
    + rewrite Hl in *. destruct (linked_reach _ _ _ Hlk Hx) as [-> |H].
      * apply t_step. exact Hh.
      * eapply t_trans; [exact H|apply t_step; exact Hh].
  - cbn [cycle_check]. split; [|reflexivity]. right. exists (cycle_check c). split; [reflexivity|].
    assert (Hnin : ~ In j (cycle_check c)).
    { intros Hin. assert (existsb (N.eqb j) (cycle_check c) = true); [|congruence].
      apply existsb_exists. exists j. split; [exact Hin|apply N.eqb_refl]. }
    destruct Hi as [Hi |(l & Hl & Hlk & Hn & Hf)].
    + rewrite Hi. cbn. repeat split; auto. constructor; [auto|constructor].
    + rewrite Hl in *. split; [|split].
      * rewrite <- app_assoc. apply linked_app; assumption.
      * apply NoDup_app_one; assumption.
      * apply Forall_app. split; [exact Hf|]. constructor; [|constructor]. exact (known_lt _ _ Hk).
Qed.

Lemma check_new_post c j : cycle_check c = [] ->
  match check_id c j with
  | inl c1 => inv j (cycle_check c1) /\ cycle_check c1 = [j]
  | inr x => xi x
  end.
Proof.
  intros Hc. unfold check_id. rewrite Hc. cbn. split; [|reflexivity].
  right. exists []. cbn. repeat split; auto. constructor; [auto|constructor].
Qed.

(** *** husk_type *)

Lemma def_of_none t : hinted_from_type t = HtNone -> def_of t = Some (t_def t).
Proof.
  rewrite hinted_classify. unfold hinted_of, def_of.
  destruct (classify t); intros H; try discriminate H; reflexivity.
Qed.

Lemma holds_field id t f : known id t -> hinted_from_type t = HtNone -> t_def t = TComposite [f] ->
  holds id (f_ty f).
Proof.
  intros Hk Hh Hd. exists t. split; [exact Hk|]. unfold child. rewrite (def_of_none _ Hh), Hd.
  exists f. cbn; auto.
Qed.

Lemma holds_compact id t i : known id t -> hinted_from_type t = HtNone -> t_def t = TCompact i ->
  holds id i.
Proof.
  intros Hk Hh Hd. exists t. split; [exact Hk|]. unfold child. rewrite (def_of_none _ Hh), Hd.
  reflexivity.
Qed.

Lemma husk_loop_post fuel : forall t id c acc p e,
  known id t -> inv id (cycle_check c) -> cycle_check c <> [] ->
  (R + 1 <= fuel + List.length (cycle_check c))%nat ->
  post xr (fun hu q => q = p /\ known (hu_id hu) (hu_ty hu) /\ inv (hu_id hu) (cycle_check (hu_checker hu))
                       /\ (List.length (cycle_check c) <= List.length (cycle_check (hu_checker hu)))%nat)
    p (husk_loop r fuel t id c acc p e).
Proof.
  induction fuel as [|fuel IH]; intros t id c acc p e Hk Hi Hne Hf.
  - pose proof (inv_length _ _ _ Hi Hk). lia.
  - cbn [husk_loop].
    remember (if info_is_empty (info_from_ty t) then acc else acc ++ [info_from_ty t]) as acc1.
    assert (Hret : post xr (fun hu q => q = p /\ known (hu_id hu) (hu_ty hu)
        /\ inv (hu_id hu) (cycle_check (hu_checker hu))
        /\ (List.length (cycle_check c) <= List.length (cycle_check (hu_checker hu)))%nat)
        p (@ret E reg_err _ (Husked acc1 c t id) p e)).
    { apply post_ret. cbn. auto. }
    destruct (hinted_from_type t) eqn:Hh; try exact Hret.
    destruct (t_def t) as [fs| | | | | |inner|] eqn:Hd; try exact Hret.
    + destruct fs as [|f [|f2 fs]]; try exact Hret.
      pose proof (check_post id t c (f_ty f) Hi Hk (holds_field _ _ _ Hk Hh Hd)) as Hc.
      eapply post_bind with (Q := fun c1 q => q = p /\ inv (f_ty f) (cycle_check c1)
                                  /\ cycle_check c1 = cycle_check c ++ [f_ty f]).
      { eapply post_map_err with (XP := xi); [|auto]. apply post_lift.
        destruct (check_id c (f_ty f)); auto. }
      intros c1 q e1 _ (-> & Hi1 & Hc1). eapply post_bind; [apply resolve_post|].
      intros t1 q e2 _ (-> & Hk1).
      assert (Hcc : cycle_check match c_hint c1 with HNone => with_hint c1 (hint_from_field f) | _ => c1 end
                    = cycle_check c1) by (destruct (c_hint c1); reflexivity).
      eapply post_imp; [apply IH; rewrite ?Hcc; auto|].
      * rewrite Hc1. destruct (cycle_check c); discriminate.
      * rewrite Hc1, app_length. cbn [List.length]. lia.
      * cbv beta. rewrite Hcc, Hc1, app_length. cbn [List.length]. intros a q (H1 & H2 & H3 & H4).
        repeat split; auto. lia.
    + eapply post_bind with (Q := fun _ q => q = p).
      { eapply post_map_err with (XP := xi); [|auto]. apply post_lift. unfold reject_compact.
        destruct (compact_at c); [noerr|reflexivity]. }
      intros _ q e0 _ ->.
      pose proof (check_post id t (with_compact_at c id) inner Hi Hk (holds_compact _ _ _ Hk Hh Hd)) as Hc.
      eapply post_bind with (Q := fun c1 q => q = p /\ inv inner (cycle_check c1)
                                  /\ cycle_check c1 = cycle_check c ++ [inner]).
      { eapply post_map_err with (XP := xi); [|auto]. apply post_lift.
        destruct (check_id (with_compact_at c id) inner); auto. }
      intros c1 q e1 _ (-> & Hi1 & Hc1). eapply post_bind; [apply resolve_post|].
      intros t1 q e2 _ (-> & Hk1). eapply post_imp; [apply IH; auto|].
      * rewrite Hc1. destruct (cycle_check c); discriminate.
      * rewrite Hc1, app_length. cbn [List.length]. lia.
      * cbv beta. rewrite Hc1, app_length. cbn [List.length]. intros a q (H1 & H2 & H3 & H4).
        repeat split; auto. lia.
Qed.

Lemma husk_type_post entry c p e :
  match check_id c entry with
  | inl c1 => inv entry (cycle_check c1) /\ cycle_check c1 <> []
  | inr x => xi x
  end ->
  post xr (fun hu q => q = p /\ known (hu_id hu) (hu_ty hu) /\ inv (hu_id hu) (cycle_check (hu_checker hu))
                       /\ (List.length (cycle_check c) < List.length (cycle_check (hu_checker hu)))%nat
                       /\ exists c1, check_id c entry = inl c1)
    p (husk_type r entry c p e).
Proof.
  intros Hc. unfold husk_type.
  eapply post_bind with (Q := fun c1 q => q = p /\ inv entry (cycle_check c1) /\ cycle_check c1 <> []
     /\ (List.length (cycle_check c) < List.length (cycle_check c1))%nat /\ check_id c entry = inl c1).
  { eapply post_map_err with (XP := xi); [|auto]. apply post_lift.
    destruct (check_id c entry) as [c1|] eqn:Hck; [|exact Hc].
    split; [reflexivity|]. destruct Hc as [H1 H2]. split; [exact H1|]. split; [exact H2|].
    split; [|reflexivity]. apply check_id_ok in Hck. destruct Hck as [_ ->]. cbn [cycle_check]. rewrite app_length. cbn. lia. }
  intros c1 q e1 _ (-> & Hi1 & Hne & Hlen & Hck). eapply post_bind; [apply resolve_post|].
  intros t1 q e2 _ (-> & Hk1). eapply post_imp; [apply husk_loop_post; cbn [cycle_check]; auto|].
  - unfold husk_fuel. lia.
  - cbn [cycle_check]. intros a q (H1 & H2 & H3 & H4). repeat split; eauto. lia.
Qed.

(** *** Special types *)

Lemma pick_variant_post vs q0 p e :
  post xp (fun v q => q = p /\ (q0 + 1 <= L)%nat) p (pick_variant b vs q0 p e).
Proof.
  unfold pick_variant. eapply post_bind; [apply read_byte_post|].
  intros x q e1 _ [-> H]. destruct (find_variant vs x); [apply post_ret; auto|apply post_fail; noerr].
Qed.

(** Computations that do not touch the position. *)
Definition keeps {X A} (m : M E X A) : Prop := forall p e, snd (fst (m p e)) = p.

Lemma keeps_bind {X A B} (m : M E X A) (f : A -> M E X B) :
  keeps m -> (forall a, keeps (f a)) -> keeps (bind m f).
Proof.
  intros Hm Hf p e. unfold bind. specialize (Hm p e).
  destruct (m p e) as [[[a|x| |] q] e1]; cbn [fst snd] in *; subst q; auto. apply Hf.
Qed.
Lemma keeps_ret {X A} (a : A) : keeps (@ret E X A a).
Proof. intros p e. reflexivity. Qed.
Lemma keeps_lift_int {A} (x : A + int_err) : keeps (@lift_int E A x).
Proof. intros p e. destruct x; reflexivity. Qed.
Lemma keeps_resolve id : keeps (resolve_ty r id).
Proof. intros p e. unfold resolve_ty. destruct (resolve r id e) as [[t|x] e']; reflexivity. Qed.

Lemma keeps_husk_loop fuel : forall t id c acc, keeps (husk_loop r fuel t id c acc).
Proof.
  induction fuel as [|fuel IH]; intros t id c acc; [intros p e; reflexivity|].
  cbn [husk_loop]. destruct (hinted_from_type t); try apply keeps_ret.
  destruct (t_def t) as [fs| | | | | |inner|]; try apply keeps_ret.
  - destruct fs as [|f [|f2 fs]]; try apply keeps_ret.
    apply keeps_bind; [apply keeps_lift_int|]. intros c1. apply keeps_bind; [apply keeps_resolve|].
    intros t1. apply IH.
  - apply keeps_bind; [apply keeps_lift_int|]. intros _.
    apply keeps_bind; [apply keeps_lift_int|]. intros c1. apply keeps_bind; [apply keeps_resolve|].
    intros t1. apply IH.
Qed.

Lemma keeps_husk entry c : keeps (husk_type r entry c).
Proof.
  unfold husk_type. apply keeps_bind; [apply keeps_lift_int|]. intros c1.
  apply keeps_bind; [apply keeps_resolve|]. intros t1. apply keeps_husk_loop.
Qed.

Lemma keeps_read q0 n : keeps (read_slice b q0 n).
Proof. intros p e. unfold read_slice. destruct (rd b q0 n e) as [[t|x] e']; reflexivity. Qed.
Lemma keeps_pick vs q0 p e :
  snd (fst (pick_variant b vs q0 p e)) = p.
Proof.
  apply keeps_bind.
  - apply keeps_bind; [apply keeps_read|]. intros [|x [|y l]] p1 e1; reflexivity.
  - intros a p1 e1. destruct (find_variant vs a); reflexivity.
Qed.

Lemma post_catch_keeps {X Y A} (XP : X -> Prop) (YP : Y -> Prop) (Q : A -> nat -> Prop) m p e :
  keeps m -> post XP Q p (m p e) ->
  post YP (fun s q => q = p /\ match s with inl a => Q a q | inr x => True end) p (@catch E X Y A m p e).
Proof.
  intros Hk. specialize (Hk p e). unfold catch, post.
  destruct (m p e) as [[[a|x| |] q] e1]; cbn [fst snd] in Hk; intros [H1 H2]; auto.
Qed.

Lemma signature_from_field_post f p e :
  post xp (fun _ q => q = p) p (signature_from_field r f p e).
Proof.
  unfold signature_from_field.
  eapply post_bind.
  { eapply post_catch_keeps; [apply keeps_husk|]. eapply husk_type_post.
    pose proof (check_new_post checker_new (f_ty f) eq_refl) as H.
    destruct (check_id checker_new (f_ty f)); [|exact H]. destruct H as [H1 H2].
    split; [exact H1|]. rewrite H2. discriminate. }
  intros [hu|x] q e1 _ [-> Ha].
  2: apply post_ret; reflexivity.
  destruct (t_def (hu_ty hu)); try (apply post_ret; reflexivity).
  eapply post_bind.
  { eapply post_catch_keeps; [apply keeps_resolve|]. apply resolve_post. }
  intros [t|x] q e2 _ [-> _].
  2: apply post_ret; reflexivity.
  destruct (t_def t) as [| | | | |[| | |[]| | |] | |]; try (apply post_ret; reflexivity).
  destruct (f_type_name f); [|apply post_ret; reflexivity].
  repeat match goal with |- post _ _ _ ((if ?c then _ else _) _ _) => destruct c end;
    apply post_ret; reflexivity.
Qed.

Lemma checked_from_type_post t p e :
  post xp (fun k q => match k with
                      | CNone => q = p /\ def_of t = Some (t_def t)
                      | CPalletSpecific _ _ _ _ => (p < q <= L)%nat
                      | _ => True end) p
    (checked_from_type b r t p e).
Proof.
  unfold checked_from_type.
  assert (Hdef : match hinted_from_type t with HtNone | HtMultiSignature | HtPalletSpecific _
                  | HtUncheckedExtrinsic => def_of t = Some (t_def t) | _ => True end).
  { rewrite hinted_classify. unfold hinted_of, def_of.
    destruct (classify t); try exact I; try reflexivity.
    destruct (strs_eqb _ _); reflexivity. }
  destruct (hinted_from_type t); try (apply post_ret; auto; fail).
  - destruct (t_def t); try (apply post_ret; auto; fail).
    eapply post_bind; [apply post_get|]. intros a q e1 _ [-> ->].
    eapply post_bind.
    { eapply post_catch_keeps; [intros ? ?; apply keeps_pick|]. apply pick_variant_post. }
    intros [v|x] q e2 _ [-> Hv]; [|apply post_ret; auto].
    destruct (v_fields v) as [|f [|f2 fs]]; try (apply post_ret; auto; fail).
    eapply post_bind; [apply signature_from_field_post|].
    intros s q e3 _ ->. unfold ENUM_INDEX_ENCODED_LEN.
    destruct s; try (apply post_ret; auto; fail);
      (eapply post_bind; [apply post_set; lia|]; intros; apply post_ret; exact I).
  - destruct (t_def t); try (apply post_ret; auto; fail).
    eapply post_bind; [apply post_get|]. intros a q e1 _ [-> ->].
    eapply post_bind.
    { eapply post_catch_keeps; [intros ? ?; apply keeps_pick|]. apply pick_variant_post. }
    intros [v|x] q e2 _ [-> Hv]; [|apply post_ret; auto].
    destruct (v_fields v) as [|f [|f2 fs]]; try (apply post_ret; auto; fail).
    eapply post_bind.
    { eapply post_catch_keeps; [apply keeps_resolve|]. apply resolve_post. }
    intros [t1|x] q e3 _ [-> _]; [|apply post_ret; auto].
    destruct (hinted_from_type t1); try (apply post_ret; auto; fail).
    destruct (pitem_eqb i i0); try (apply post_ret; auto; fail).
    destruct (t_def t1); try (apply post_ret; auto; fail).
    unfold ENUM_INDEX_ENCODED_LEN.
    eapply post_bind; [apply post_set; lia|]. intros _ q e4 _ ->. apply post_ret. lia.
Qed.

(** *** Bit sequences *)

Lemma decode_bit_sequence_post s o id p e : post xp any p (decode_bit_sequence b r s o id p e).
Proof.
  unfold decode_bit_sequence. eapply post_bind; [apply post_get|]. intros a q e1 _ [-> ->].
  eapply post_bind with (Q := fun _ q => q = p).
  { eapply post_map_err with (XP := xr); [|auto]. unfold find_bit_order_ty.
    eapply post_bind; [apply resolve_post|]. intros t q e2 _ [-> _].
    assert (Hf : forall e, post xr (fun (_ : bit_order) q => q = p) p
                  (@fail E _ _ (RInternal (NotBitOrderType id)) p e)).
    { intros. apply post_fail. noerr. }
    destruct (t_def t); try apply Hf. destruct (path_ident (t_path t)); [|apply Hf].
    destruct (String.eqb s0 "Lsb0"); [apply post_ret; reflexivity|].
    destruct (String.eqb s0 "Msb0"); [apply post_ret; reflexivity|apply Hf]. }
  intros ord q e2 _ ->. eapply post_bind.
  { eapply post_map_err with (XP := xr); [apply resolve_post|auto]. }
  intros t q e3 _ [-> _].
  assert (Hf : forall e, post xp (@any pdata) p
                  (@fail E _ _ (PRegistry (RInternal (NotBitStoreType id))) p e)).
  { intros. apply post_fail. noerr. }
  destruct (t_def t) as [| | | | |pr| |]; try apply Hf.
  destruct pr as [| | |w| | |]; try apply Hf.
  assert (Hw : forall w e, post xp any p
    (bind (into_bitvec_decode b (N.of_nat (usize w))) (fun l =>
      match bitvec_decode_all w ord l with
      | Some bits => ret (DBitVec w ord bits)
      | None => fail (TypeFailure p (bitvec_name w ord)) end) p e)).
  { intros w' e'. eapply post_bind with (Q := any).
    - unfold into_bitvec_decode. eapply post_bind; [apply post_get|]. intros a q e4 _ [-> ->].
      eapply post_bind with (Q := fun _ q => q = p).
      + unfold bitvec_positions. eapply post_bind; [apply find_compact_post|].
        intros [n s1] q e5 _ [-> _]. apply post_ret. reflexivity.
      + intros [[ds bl] ml] q e5 _ ->. eapply post_bind; [apply read_slice_post|].
        intros l q e6 _ (-> & H1 & H2). eapply post_bind; [apply post_set; lia|]. intros. leaf.
    - intros l q e4 Hq _. destruct (bitvec_decode_all w' ord l); [leaf|apply post_fail; noerr]. }
  destruct w; try apply Hf; apply Hw.
Qed.

(** *** The decoder *)

Definition mu (pos : nat) (cyc : list N) : nat :=
  ((L - pos) * (R + 3) + (R + 2 - List.length cyc))%nat.

Definition inp_id (inp : ty_input) : N := match inp with Resolved _ id => id | Symbol id => id end.
Definition inp_ok (inp : ty_input) : Prop :=
  match inp with Resolved t id => known id t | Symbol _ => True end.

Section Body.
Variable m : nat.
Variable dec : ty_input -> propagated -> M E parser_err (ext pdata).
Hypothesis Hd : forall inp p pos e, inp_ok inp -> inv (inp_id inp) (cycle_check (checker_of p)) ->
  (mu pos (cycle_check (checker_of p)) < m)%nat -> post xp any pos (dec inp p pos e).

(** Entering type [j] is allowed. *)
Definition step_ok (pos : nat) (c : checker) (j : N) : Prop :=
  match check_id c j with
  | inl c1 => inv j (cycle_check c1) /\ (mu pos (cycle_check c1) < m)%nat
  | inr x => xi x
  end.

Lemma mu_mono pos q cyc : (pos <= q)%nat -> (mu q cyc <= mu pos cyc)%nat.
Proof. intros H. unfold mu. apply Nat.add_le_mono_r, Nat.mul_le_mono_r. lia. Qed.

Lemma step_ok_mono pos q c j : (pos <= q)%nat -> step_ok pos c j -> step_ok q c j.
Proof.
  intros H. unfold step_ok. destruct (check_id c j); [|auto]. intros [H1 H2].
  split; [exact H1|]. pose proof (mu_mono pos q (cycle_check c0) H). lia.
Qed.

Lemma step_ok_cyc pos c c' j : cycle_check c' = cycle_check c -> step_ok pos c j -> step_ok pos c' j.
Proof.
  intros H. unfold step_ok, check_id. rewrite H.
  destruct (existsb (N.eqb j) (cycle_check c)); cbn [cycle_check]; rewrite ?H; auto.
Qed.

Lemma child_step pos id t c j : known id t -> inv id (cycle_check c) -> child t j ->
  (mu pos (cycle_check c) <= m)%nat -> step_ok pos c j.
Proof.
  intros Hk Hi Hc Hm. unfold step_ok.
  pose proof (check_post id t c j Hi Hk) as H. specialize (H (ex_intro _ t (conj Hk Hc))).
  destruct (check_id c j) as [c1|]; [|exact H]. destruct H as [H1 H2]. split; [exact H1|].
  pose proof (inv_length _ _ _ Hi Hk). rewrite H2. unfold mu in *. rewrite app_length.
  cbn [List.length]. lia.
Qed.

Lemma new_step pos q c j : cycle_check c = [] -> (pos < q <= L)%nat -> forall cyc,
  (mu pos cyc <= m)%nat -> step_ok q c j.
Proof.
  intros Hc Hq cyc Hm. unfold step_ok. pose proof (check_new_post c j Hc) as H.
  destruct (check_id c j) as [c1|]; [|exact H]. destruct H as [H1 H2]. split; [exact H1|].
  rewrite H2. unfold mu in *. cbn [List.length].
  assert ((L - q) * (R + 3) + (R + 3) <= (L - pos) * (R + 3))%nat; [|lia].
  replace ((L - q) * (R + 3) + (R + 3))%nat with (S (L - q) * (R + 3))%nat by lia.
  apply Nat.mul_le_mono_r. lia.
Qed.

Lemma fields_loop_post fields : forall c pos e,
  (forall f, In f fields -> step_ok pos c (f_ty f)) ->
  post xp any pos (fields_loop dec fields c pos e).
Proof.
  induction fields as [|f fs IH]; intros c pos e H; cbn [fields_loop]; [leaf|].
  eapply post_bind with (Q := fun p q => q = pos /\ inv (f_ty f) (cycle_check (checker_of p))
                              /\ (mu pos (cycle_check (checker_of p)) < m)%nat).
  { unfold lift_p. eapply post_map_err with (XP := xi); [|auto]. apply post_lift.
    unfold for_field, update_for_field.
    match goal with |- context [check_id ?c' _] =>
      assert (Hs : step_ok pos c' (f_ty f)) end.
    { eapply step_ok_cyc; [|apply H; left; reflexivity]. destruct (c_hint c); reflexivity. }
    unfold step_ok in Hs.
    match goal with |- context [check_id ?c' ?j] => destruct (check_id c' j) end; cbn; auto. }
  intros p q e1 _ (-> & Hi & Hm). eapply post_bind; [apply Hd; [exact I|exact Hi|exact Hm]|].
  intros x q e2 Hq _. eapply post_bind; [apply IH|intros; leaf].
  intros f' Hf'. eapply step_ok_mono; [|apply H; right; exact Hf']. lia.
Qed.

Lemma decode_fields_post fields c pos e :
  (forall f, In f fields -> step_ok pos c (f_ty f)) ->
  post xp any pos (decode_fields dec fields c pos e).
Proof.
  intros H. unfold decode_fields. destruct fields as [|f1 [|f2 fs]]; try (apply fields_loop_post; exact H).
  eapply post_bind; [apply reject_compact_post|]. intros _ q e1 Hq _. apply fields_loop_post.
  intros f Hf. eapply step_ok_mono with (pos := pos); [lia|].
  eapply step_ok_cyc; [|apply H; exact Hf]. reflexivity.
Qed.

Lemma tuple_loop_post ids : forall c pos e,
  (forall i, In i ids -> step_ok pos c i) ->
  post xp any pos (tuple_loop r dec ids c pos e).
Proof.
  induction ids as [|i ids IH]; intros c pos e H; cbn [tuple_loop]; [leaf|].
  eapply post_bind. { eapply post_map_err with (XP := xr); [apply resolve_post|auto]. }
  intros t q e1 _ [-> Hk].
  eapply post_bind with (Q := fun p q => q = pos /\ inv i (cycle_check (checker_of p))
                              /\ (mu pos (cycle_check (checker_of p)) < m)%nat).
  { unfold lift_p. eapply post_map_err with (XP := xi); [|auto]. apply post_lift.
    unfold for_ty, update_for_ty. specialize (H i (or_introl eq_refl)). unfold step_ok in H.
    destruct (check_id c i) as [c1|]; [|exact H]. cbn [checker_of with_checker].
    unfold update_from_path. destruct (c_hint c1); cbn; auto. }
  intros p q e2 _ (-> & Hi & Hm). eapply post_bind; [apply Hd; [exact Hk|exact Hi|exact Hm]|].
  intros x q e3 Hq _. eapply post_bind; [apply IH|intros; leaf].
  intros i' Hi'. eapply step_ok_mono; [|apply H; right; exact Hi']. lia.
Qed.

Lemma elements_loop_post hu : forall n pos e,
  known (hu_id hu) (hu_ty hu) -> inv (hu_id hu) (cycle_check (hu_checker hu)) ->
  (mu pos (cycle_check (hu_checker hu)) < m)%nat ->
  post xp any pos (elements_loop dec n hu pos e).
Proof.
  induction n as [|n IH]; intros pos e Hk Hi Hm; cbn [elements_loop]; [leaf|].
  eapply post_bind; [apply Hd; [exact Hk|exact Hi|exact Hm]|].
  intros x q e1 Hq _. eapply post_bind; [apply IH; auto|intros; leaf].
  pose proof (mu_mono pos q (cycle_check (hu_checker hu)) ltac:(lia)). lia.
Qed.

Lemma decode_elements_post elem n p pos e :
  step_ok pos (checker_of p) elem ->
  post xp any pos (decode_elements_set r dec elem n p pos e).
Proof.
  intros H. unfold decode_elements_set. eapply post_bind; [apply reject_compact_post|].
  intros _ q e1 Hq _. apply (step_ok_mono pos q) in H; [|lia].
  eapply post_bind.
  { eapply post_map_err with (XP := xr); [|auto]. apply husk_type_post.
    unfold step_ok in H. destruct (check_id (checker_of p) elem) as [c1|] eqn:Hc; [|exact H].
    split; [apply H|]. apply check_id_ok in Hc. destruct Hc as [_ ->]. cbn.
    destruct (cycle_check (checker_of p)); discriminate. }
  intros hu q2 e2 _ (-> & Hk & Hi & Hl & c1 & Hc). destruct (n =? 0)%N; [leaf|].
  eapply post_bind; [apply elements_loop_post; auto|intros; leaf].
  unfold step_ok in H. rewrite Hc in H. apply check_id_ok in Hc. destruct Hc as [_ ->].
  cbn [cycle_check] in H. destruct H as [_ H].
  unfold mu in *. rewrite app_length in H. cbn [List.length] in H. lia.
Qed.

Lemma decode_variant_post variants pos e cyc : (mu pos cyc <= m)%nat ->
  post xp any pos (decode_variant b dec variants pos e).
Proof.
  intros Hm. unfold decode_variant. eapply post_bind; [apply post_get|]. intros a q e1 _ [-> ->].
  eapply post_bind; [apply pick_variant_post|]. intros v q e2 _ [-> Hv].
  unfold ENUM_INDEX_ENCODED_LEN.
  eapply post_bind; [apply post_set; lia|]. intros _ q e3 _ ->.
  eapply post_bind; [apply decode_fields_post|intros; leaf].
  intros f _. eapply (new_step pos); [reflexivity| |exact Hm]. cbv beta in *. lia.
Qed.

Lemma decode_plain_post t id p pos e :
  known id t -> def_of t = Some (t_def t) -> inv id (cycle_check (checker_of p)) ->
  (mu pos (cycle_check (checker_of p)) <= m)%nat ->
  post xp any pos (decode_plain b r dec t id p pos e).
Proof.
  intros Hk Hdef Hi Hm. unfold decode_plain.
  assert (Hch : forall j, child t j -> step_ok pos (checker_of p) j).
  { intros j Hj. eapply child_step; eauto. }
  unfold child in Hch. rewrite Hdef in Hch.
  destruct (t_def t) as [fields|variants|elem|len elem|elems|x|inner|store order].
  - eapply post_bind; [apply decode_fields_post|intros; leaf].
    intros f Hf. apply Hch. eauto.
  - eapply post_bind; [apply reject_compact_post|]. intros _ q e1 Hq _.
    destruct variants; [leaf|].
    eapply post_bind; [eapply decode_variant_post|intros; leaf].
    pose proof (mu_mono pos q (cycle_check (checker_of p)) ltac:(lia)) as H.
    eapply Nat.le_trans; [exact H|exact Hm].
  - eapply post_bind; [apply get_compact_post|]. intros n q e1 _ Hq.
    apply decode_elements_post. eapply (new_step pos q); [reflexivity|exact Hq|exact Hm].
  - apply decode_elements_post. apply Hch. reflexivity.
  - destruct elems as [|i1 [|i2 ids]].
    1, 2: eapply post_bind; [apply tuple_loop_post; exact Hch|intros; leaf].
    eapply post_bind; [apply reject_compact_post|]. intros _ q e1 Hq _.
    eapply post_bind; [apply tuple_loop_post|intros; leaf].
    intros i Hin. eapply step_ok_mono with (pos := pos); [lia|].
    eapply step_ok_cyc; [|apply Hch; exact Hin]. reflexivity.
  - eapply post_bind; [apply decode_primitive_post|intros; leaf].
  - eapply post_bind; [apply reject_compact_post|]. intros _ q e1 Hq _.
    eapply post_bind with (Q := fun c1 q' => q' = q /\ inv inner (cycle_check c1)
                              /\ (mu q (cycle_check c1) < m)%nat).
    { unfold lift_p. eapply post_map_err with (XP := xi); [|auto]. apply post_lift.
      assert (Hs : step_ok q (with_compact_at (checker_of p) id) inner).
      { eapply step_ok_mono with (pos := pos); [lia|].
        eapply step_ok_cyc; [|apply Hch; reflexivity]. reflexivity. }
      unfold step_ok in Hs. destruct (check_id _ inner); auto. }
    intros c1 q2 e2 _ (-> & Hi1 & Hm1). apply Hd; [exact I|exact Hi1|exact Hm1].
  - eapply post_bind; [apply reject_compact_post|]. intros _ q e1 Hq _.
    eapply post_bind; [apply decode_bit_sequence_post|intros; leaf].
Qed.

Lemma decode_checked_post k t id p pos e cyc :
  (mu pos cyc <= m)%nat ->
  (k = CNone -> known id t /\ def_of t = Some (t_def t) /\ inv id (cycle_check (checker_of p)) /\
                (mu pos (cycle_check (checker_of p)) <= m)%nat) ->
  post xp any pos (decode_checked b r dec k t id p pos e).
Proof.
  intros Hm Hk. destruct k; cbn [decode_checked].
  - destruct (Hk eq_refl) as (H1 & H2 & H3 & H4). apply decode_plain_post; auto.
  - eapply post_bind; [apply parse_fixed_post|intros; leaf].
  - eapply post_bind; [apply reject_compact_post|]. intros _ q e1 Hq _.
    eapply post_bind; [apply special_case_era_post|intros; leaf].
  - eapply post_bind; [apply reject_compact_post|]. intros _ q e1 Hq _.
    eapply post_bind; [apply h256_post|intros; leaf].
  - eapply post_bind; [apply reject_compact_post|]. intros _ q e1 Hq _.
    eapply post_bind; [apply (decode_variant_post variants q e1 cyc)|intros; leaf].
    pose proof (mu_mono pos q cyc ltac:(lia)). lia.
  - eapply post_bind; [apply parse_per_post|intros; leaf].
Qed.

Lemma decode_body_post inp p pos e :
  inp_ok inp -> inv (inp_id inp) (cycle_check (checker_of p)) ->
  (mu pos (cycle_check (checker_of p)) <= m)%nat ->
  post xp any pos (decode_body b r dec inp p pos e).
Proof.
  intros Hok Hi Hm. unfold decode_body.
  eapply post_bind with (Q := fun ti q => q = pos /\ known (snd ti) (fst ti) /\ snd ti = inp_id inp).
  { destruct inp as [t id|id]; [apply post_ret; cbn; auto|].
    eapply post_bind; [eapply post_map_err with (XP := xr); [apply resolve_post|auto]|].
    intros t q e1 _ [-> Hk]. apply post_ret. cbn; auto. }
  intros [t id] q e1 _ (-> & Hk & Hid). cbn [fst snd] in *. subst id.
  assert (Hp : checker_of (add_info p (info_from_ty t)) = checker_of p).
  { unfold add_info. destruct (info_is_empty _); reflexivity. }
  eapply post_bind; [apply checked_from_type_post|].
  intros k q e2 Hq Hkq. eapply decode_checked_post with (cyc := cycle_check (checker_of p)).
  - pose proof (mu_mono pos q (cycle_check (checker_of p)) ltac:(lia)). lia.
  - intros ->. destruct Hkq as [-> Hdef]. rewrite Hp. auto.
Qed.

End Body.

Theorem decode_post fuel : forall inp p pos e,
  inp_ok inp -> inv (inp_id inp) (cycle_check (checker_of p)) ->
  (mu pos (cycle_check (checker_of p)) < fuel)%nat ->
  post xp any pos (decode b r fuel inp p pos e).
Proof.
  induction fuel as [|fuel IH]; intros inp p pos e H1 H2 H3; [lia|].
  cbn [decode]. eapply decode_body_post with (m := fuel); auto. lia.
Qed.

Lemma mu_fuel pos : (mu pos [] < decode_fuel b r)%nat.
Proof.
  unfold mu, decode_fuel. cbn [List.length].
  assert ((L - pos) * (R + 3) <= L * (R + 3))%nat by (apply Nat.mul_le_mono_r; lia).
  lia.
Qed.

(** Decoding with any hint, at top level. *)
Theorem decode_with_type_post inp p pos e :
  inp_ok inp -> cycle_check (checker_of p) = [] ->
  post xp any pos (decode_with_type b r inp p pos e).
Proof.
  intros H1 H2. unfold decode_with_type. apply decode_post; auto.
  - left. exact H2.
  - rewrite H2. apply mu_fuel.
Qed.

End Safe.
