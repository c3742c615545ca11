(** C70 for the whole API. *)
From Coq Require Import Lia.
From Verif Require Import Base Compact Types Indicators Decode Sign Storage Unchecked Spec SpecSource SpecReach SpecRenumber
  ProofBase ProofSafe ProofSafe2 ProofReach ProofRenumber.
Local Open Scope list_scope.

(** Related always. *)
Definition remr {E X A} (fe : X -> X) (R : A -> A -> Prop) (m1 m2 : M E X A) : Prop :=
  forall p e, relres fe R (m1 p e) (m2 p e).

Section Rules.
Context {E X : Type}.
Variable fe : X -> X.

Lemma remr_ret {A} (R : A -> A -> Prop) a a' : R a a' -> remr fe R (@ret E X A a) (ret a').
Proof. intros H p e. repeat split. exact H. Qed.
Lemma remr_fail {A} (R : A -> A -> Prop) x y : y = fe x -> remr fe R (@fail E X A x) (fail y).
Proof. intros H p e. repeat split. exact H. Qed.
Lemma remr_panic {A} (R : A -> A -> Prop) : remr fe R (@panic E X A) panic.
Proof. intros p e. repeat split. Qed.
Lemma remr_get : remr fe eq (@get_pos E X) get_pos.
Proof. intros p e. repeat split. Qed.
Lemma remr_set q : remr fe eq (@set_pos E X q) (set_pos q).
Proof. intros p e. repeat split. Qed.

Lemma remr_bind {A B} (P : A -> A -> Prop) (R : B -> B -> Prop) (m1 m2 : M E X A) (f1 f2 : A -> M E X B) :
  remr fe P m1 m2 -> (forall a a', P a a' -> remr fe R (f1 a) (f2 a')) -> remr fe R (bind m1 f1) (bind m2 f2).
Proof.
  intros Hm Hf p e. unfold bind. pose proof (Hm p e) as H.
  destruct (m1 p e) as [[o1 q1] e1], (m2 p e) as [[o2 q2] e2]. unfold relres in H. cbn [fst snd] in H.
  destruct H as (-> & -> & H).
  destruct o1 as [a|x| |], o2 as [a'|y| |]; try contradiction; try (repeat split; exact H). apply Hf, H.
Qed.

Lemma remr_eq {A B} (R : B -> B -> Prop) (m : M E X A) (f1 f2 : A -> M E X B) :
  remr fe eq m m -> (forall a, remr fe R (f1 a) (f2 a)) -> remr fe R (bind m f1) (bind m f2).
Proof. intros Hm Hf. apply remr_bind with (P := eq); [exact Hm|]. intros a a' <-. apply Hf. Qed.

Lemma remr_lift {A} (R : A -> A -> Prop) (s1 s2 : A + X) :
  match s1, s2 with inl a, inl a' => R a a' | inr x, inr y => y = fe x | _, _ => False end ->
  remr fe R (@lift E X A s1) (lift s2).
Proof. destruct s1 as [a|x], s2 as [a'|y]; try contradiction; cbn [lift]; [apply remr_ret|apply remr_fail]. Qed.

Lemma remr_local {A} (R : A -> A -> Prop) n (m1 m2 : M E X A) : remr fe R m1 m2 ->
  remr fe (fun x y => R (fst x) (fst y) /\ snd y = snd x) (at_local n m1) (at_local n m2).
Proof.
  intros H p e. unfold at_local. pose proof (H n e) as F.
  destruct (m1 n e) as [[o1 q1] e1], (m2 n e) as [[o2 q2] e2]. unfold relres in F. cbn [fst snd] in F.
  destruct F as (-> & -> & F). destruct o1, o2; try contradiction; repeat split; exact F.
Qed.

(** Computations that fail only with errors that name no type. *)
Lemma remr_same {A} (m : M E X A) : (forall p e x q e', m p e = (Err x, q, e') -> fe x = x) -> remr fe eq m m.
Proof.
  intros H p e. destruct (m p e) as [[[a|x| |] q] e'] eqn:Em; repeat split. cbn. symmetry. eapply H, Em.
Qed.
End Rules.

Lemma remr_map_err {E X Y A} (fe : X -> X) (fy : Y -> Y) (R : A -> A -> Prop) (g : X -> Y) (m1 m2 : M E X A) :
  (forall x, g (fe x) = fy (g x)) -> remr fe R m1 m2 -> remr fy R (map_err g m1) (map_err g m2).
Proof.
  intros Hg H p e. unfold map_err. pose proof (H p e) as F.
  destruct (m1 p e) as [[o1 q1] e1], (m2 p e) as [[o2 q2] e2]. unfold relres in F. cbn [fst snd] in F.
  destruct F as (-> & -> & F). destruct o1, o2; try contradiction; repeat split; try exact F. cbn. rewrite F. apply Hg.
Qed.

Lemma remr_catch {E X Y A} (fe : X -> X) (fy : Y -> Y) (R : A -> A -> Prop) (m1 m2 : M E X A) : remr fe R m1 m2 ->
  remr fy (fun r s : A + X => match r, s with inl a, inl a' => R a a' | inr x, inr y => y = fe x | _, _ => False end)
    (@catch E X Y A m1) (catch m2).
Proof.
  intros H p e. unfold catch. pose proof (H p e) as F.
  destruct (m1 p e) as [[o1 q1] e1], (m2 p e) as [[o2 q2] e2]. unfold relres in F. cbn [fst snd] in F.
  destruct F as (-> & -> & F). destruct o1, o2; try contradiction; repeat split; exact F.
Qed.

(** Read as an equation. *)
Lemma remr_equation {E X A} (fe : X -> X) (g : A -> A) (m1 m2 : M E X A) p e :
  remr fe (fun a a' => a' = g a) m1 m2 -> m2 p e = renumber_result fe g (m1 p e).
Proof.
  intros H. pose proof (H p e) as F. destruct (m1 p e) as [[o1 q1] e1], (m2 p e) as [[o2 q2] e2]. unfold relres in F. cbn [fst snd] in *.
  destruct F as (-> & -> & F). destruct o1, o2; try contradiction; cbn [renumber_result renumber_outcome]; try reflexivity; rewrite F; reflexivity.
Qed.

Lemma remr_equation_same {E X A} (fe : X -> X) (m1 m2 : M E X A) p e : remr fe eq m1 m2 ->
  m2 p e = renumber_result fe SpecRenumber.same (m1 p e).
Proof.
  intros H. apply remr_equation. intros q e'. pose proof (H q e') as (H1 & H2 & H3). split; [exact H1|]. split; [exact H2|].
  destruct (fst (fst (m1 q e'))), (fst (fst (m2 q e'))); try exact H3. symmetry. exact H3.
Qed.

Section Registry.
Context {E : Type}.
Variable f : N -> N.
Variable S : N -> Prop.
Variables r1 r2 : registry E.
Hypothesis Hinj : kept_apart f S r1.
Hypothesis Hclosed : closed r1 S.
Hypothesis Hren : renumbers f S r1 r2.
Hypothesis Hr1 : good_registry r1.
Hypothesis Hr2 : good_registry r2.
Notation fe := (renumber_err f).

Definition wider : registry E := Registry E (Nat.max (reg_bound r1) (reg_bound r2)) (resolve r2).

Lemma type_renumbered b id p : good_buffer b -> S id -> cycle_check (checker_of p) = [] -> compact_at (checker_of p) = None ->
  remr fe eq (decode_with_type b r1 (Symbol id) p) (decode_with_type b r2 (Symbol (f id)) p).
Proof.
  intros Hb Hid Hp Hn pos e.
  assert (G : good_registry wider).
  { intros x e1 t e2 H. apply Hr2 in H. cbn [wider reg_bound]. lia. }
  rewrite (hinted_reach b r2 wider (fun _ => True) (f id) p pos e Hb Hr2 G); [|intros ? ? ? ? _ _; apply Forall_forall; trivial|intros ? ? _; reflexivity|exact I|exact Hp].
  apply (with_type_r f S r1 wider Hinj Hclosed Hren); try assumption. cbn [wider reg_bound]. lia.
Qed.

Lemma at_renumbered b id : good_buffer b -> S id -> remr fe eq (decode_as_type_at_position b r1 id) (decode_as_type_at_position b r2 (f id)).
Proof. intros Hb Hid. apply type_renumbered; auto. Qed.

Lemma all_renumbered b id : good_buffer b -> S id -> remr fe eq (decode_all_body b r1 id) (decode_all_body b r2 (f id)).
Proof.
  intros Hb Hid. unfold decode_all_body. apply remr_eq; [apply remr_set|]. intros _.
  eapply remr_bind; [apply at_renumbered; assumption|]. intros x x' <-. apply remr_eq; [apply remr_get|]. intros q.
  destruct (Nat.eqb _ _); [apply remr_ret; reflexivity|apply remr_fail; reflexivity].
Qed.

Lemma extensions_loop_renumbered b l : good_buffer b -> Forall (fun x => S (snd x)) l ->
  remr fe eq (extensions_loop b r1 l) (extensions_loop b r2 (map (fun x => (fst x, f (snd x))) l)).
Proof.
  intros Hb. induction 1 as [|[i id] l Hx _ IH]; cbn [extensions_loop map fst snd]; [apply remr_ret; reflexivity|].
  eapply remr_bind; [apply type_renumbered; auto|]. intros x x' <-. eapply remr_bind; [exact IH|]. intros y y' <-.
  apply remr_ret; reflexivity.
Qed.

Section Keys.
Variables blake2_128 twox_64 : bytes -> bytes.
Notation fs := (renumber_storage f).

Lemma key_slice b p n : remr fs eq (map_err ParsingKey (@read_slice E b p n)) (map_err ParsingKey (read_slice b p n)).
Proof.
  apply remr_same. intros q e x q' e' H. unfold map_err, read_slice in H. destruct (rd b p n e) as [[l|y] e1]; [discriminate|].
  injection H as <- _ _. reflexivity.
Qed.

Lemma key_part_renumbered h id b : good_buffer b -> S id ->
  remr fs (fun k k' => k' = renumber_part f k) (key_part_decode blake2_128 twox_64 h id b r1) (key_part_decode blake2_128 twox_64 h (f id) b r2).
Proof.
  intros Hb Hid.
  assert (K : remr fs eq (map_err ParsingKey (decode_with_type b r1 (Symbol id) propagated_new))
                         (map_err ParsingKey (decode_with_type b r2 (Symbol (f id)) propagated_new))).
  { apply remr_map_err with (fe := fe); [reflexivity|]. apply type_renumbered; auto. }
  assert (C : forall len hash, remr fs (fun k k' => k' = renumber_part f k) (check_hash len hash id b r1) (check_hash len hash (f id) b r2)).
  { intros len hash. unfold check_hash. apply remr_eq; [apply remr_get|]. intros p. apply remr_eq; [apply key_slice|]. intros s.
    destruct (_ =? _)%N; [|apply remr_panic]. cbv zeta. apply remr_eq; [apply remr_set|]. intros _.
    eapply remr_bind; [exact K|]. intros x x' <-. apply remr_eq; [apply remr_get|]. intros q.
    apply remr_eq; [|intros [l|y]; [|apply remr_panic]; destruct (bytes_eqb s (hash l)); [apply remr_ret; reflexivity|apply remr_fail; reflexivity]].
    apply remr_same. intros p1 e x1 q1 e1 H. unfold catch in H. destruct (read_slice _ _ _ p1 e) as [[[]?]?]; discriminate H. }
  assert (D : forall len k, remr fs (fun k k' => k' = renumber_part f k) (@cut_hash E len k id b) (cut_hash len k (f id) b)).
  { intros len k. unfold cut_hash. apply remr_eq; [apply remr_get|]. intros p. apply remr_eq; [apply key_slice|]. intros s.
    destruct (_ =? _)%N; [|apply remr_panic]. apply remr_eq; [apply remr_set|]. intros _. apply remr_ret. reflexivity. }
  destruct h; cbn [key_part_decode]; try apply D; try apply C.
  eapply remr_bind; [exact K|]. intros x x' <-. apply remr_ret. reflexivity.
Qed.

Lemma key_parts_renumbered b : good_buffer b -> forall hs ids, Forall S ids ->
  remr fs (fun k k' => k' = map (renumber_part f) k) (key_parts blake2_128 twox_64 hs ids b r1) (key_parts blake2_128 twox_64 hs (map f ids) b r2).
Proof.
  intros Hb. induction hs as [|h hs IH]; intros ids Hi; [apply remr_ret; reflexivity|]. destruct Hi as [|id ids Hid Hi]; [apply remr_ret; reflexivity|].
  cbn [key_parts map]. eapply remr_bind; [apply key_part_renumbered; assumption|]. intros x x' ->.
  eapply remr_bind; [apply IH, Hi|]. intros l l' ->. apply remr_ret. reflexivity.
Qed.

Lemma storage_renumbered kb vb entry : good_buffer kb -> good_buffer vb -> entry_in r1 S (en_ty entry) ->
  remr fs (fun s s' => s' = renumber_entry_value f s)
    (decode_as_storage_entry blake2_128 twox_64 kb vb entry r1)
    (decode_as_storage_entry blake2_128 twox_64 kb vb (EntryMeta (renumber_entry f (en_ty entry)) (en_docs entry)) r2).
Proof.
  intros Hk Hv He. unfold decode_as_storage_entry. cbn [en_ty en_docs].
  destruct (Nat.ltb _ _); [apply remr_fail; reflexivity|].
  assert (V : forall id, S id -> remr fs eq (map_err ParsingValue (decode_all_m vb r1 id)) (map_err ParsingValue (decode_all_m vb r2 (f id)))).
  { intros id Hid. apply remr_map_err with (fe := fe); [reflexivity|]. unfold decode_all_m.
    eapply remr_bind; [apply remr_local, all_renumbered; assumption|]. intros x x' [Hx _]. apply remr_ret. exact Hx. }
  destruct (en_ty entry) as [value|hashers key value]; cbn [entry_in renumber_entry] in *.
  - destruct (negb _); [apply remr_fail; reflexivity|]. eapply remr_bind; [apply V, He|]. intros x x' <-. apply remr_ret. reflexivity.
  - destruct He as (Hkey & Hval & Ht). eapply remr_bind with (P := fun k k' => k' = renumber_key f k).
    + unfold process_key_mapped. eapply remr_bind; [apply remr_local with (R := fun k k' => k' = renumber_key f k)|intros x x' [Hx _]; apply remr_ret; exact Hx].
      unfold process_key_body. eapply remr_bind with (P := fun k k' => k' = renumber_key f k).
      2: { intros k k' ->. apply remr_eq; [apply remr_get|]. intros q. destruct (Nat.eqb _ _); [apply remr_ret; reflexivity|apply remr_fail; reflexivity]. }
      assert (T : remr fs (fun k k' => k' = renumber_key f k)
        (do t <- map_err (fun x => ParsingKey (PRegistry x)) (resolve_ty r1 key);
         match t_def t with
         | TTuple elems =>
             if Nat.eqb (List.length elems) (List.length hashers)
             then do content <- key_parts blake2_128 twox_64 hashers elems kb r1; ret (KTuple content (info_from_ty t))
             else fail MultipleHashesNumberMismatch
         | _ => fail MultipleHashesNotATuple
         end)
        (do t <- map_err (fun x => ParsingKey (PRegistry x)) (resolve_ty r2 (f key));
         match t_def t with
         | TTuple elems =>
             if Nat.eqb (List.length elems) (List.length hashers)
             then do content <- key_parts blake2_128 twox_64 hashers elems kb r2; ret (KTuple content (info_from_ty t))
             else fail MultipleHashesNumberMismatch
         | _ => fail MultipleHashesNotATuple
         end)).
      { eapply remr_bind with (P := fun t t' => renumbered f t t' /\ forall ids, t_def t = TTuple ids -> Forall S ids).
        - apply remr_map_err with (fe := renumber_reg f); [reflexivity|]. intros p e. unfold resolve_ty.
          pose proof (Hren key e Hkey) as K. destruct (resolve r1 key e) as [[t|x] e'] eqn:Er.
          + destruct K as (t' & -> & K). repeat split; try apply K. intros ids Hd. exact (Ht _ _ _ _ Er Hd).
          + rewrite K. repeat split.
        - intros t t' [Hr Hids]. rewrite (info_r f t t' Hr). destruct Hr as (_ & _ & Hrd). rewrite Hrd.
          destruct (t_def t) as [| | | |ids| | |] eqn:Ed; cbn [renumber_def]; try (apply remr_fail; reflexivity).
          rewrite map_length. destruct (Nat.eqb _ _); [|apply remr_fail; reflexivity].
          eapply remr_bind; [apply key_parts_renumbered; [exact Hk|apply Hids; reflexivity]|]. intros l l' ->. apply remr_ret. reflexivity. }
      destruct hashers as [|h [|h' hs]]; [exact T| |exact T].
      eapply remr_bind; [apply key_part_renumbered; assumption|]. intros x x' ->. apply remr_ret. reflexivity.
    + intros k k' ->. eapply remr_bind; [apply V, Hval|]. intros x x' <-. apply remr_ret. reflexivity.
Qed.
End Keys.
End Registry.

Section Metadata.
Context {E ME : Type}.
Variable f : N -> N.
Variable S : N -> Prop.
Variables m1 m2 : metadata E ME.
Hypothesis Hm : renumbered_metadata f S m1 m2.
Hypothesis Hr1 : good_registry (m_types m1).
Hypothesis Hr2 : good_registry (m_types m2).
Notation fs := (@renumber_signable f ME).
Notation fu := (@renumber_unchecked f ME).

Let type_r b id p := type_renumbered f S (m_types m1) (m_types m2) (rm_apart _ _ _ _ Hm) (rm_closed _ _ _ _ Hm) (rm_types _ _ _ _ Hm) Hr1 Hr2 b id p.

Lemma call_unmarked_renumbered b : good_buffer b -> remr fs eq (decode_as_call_unmarked b m1) (decode_as_call_unmarked b m2).
Proof.
  intros Hb. unfold decode_as_call_unmarked. rewrite (rm_call _ _ _ _ Hm). pose proof (rm_call_in _ _ _ _ Hm) as Hi.
  apply remr_bind with (P := fun id id' => id' = f id /\ S id).
  - destruct (m_call_ty m1) as [id|x]; cbn [on_left lift]; intros p e; repeat split. apply Hi. reflexivity.
  - intros id id' [-> Hid]. eapply remr_bind; [apply remr_map_err with (fe := renumber_err f); [reflexivity|]; apply type_r; auto|].
    intros x x' <-. destruct (x_data x); try (apply remr_fail; reflexivity). apply remr_ret. reflexivity.
Qed.

Lemma extensions_unmarked_renumbered b g : good_buffer b -> remr fs eq (decode_extensions_unmarked b m1 g) (decode_extensions_unmarked b m2 g).
Proof.
  intros Hb. unfold decode_extensions_unmarked. rewrite (rm_extensions _ _ _ _ Hm), (rm_spec _ _ _ _ Hm).
  pose proof (rm_extensions_in _ _ _ _ Hm) as Hi.
  apply remr_bind with (P := fun l l' => l' = map (renumber_ext f) l /\ forall x, In x l -> S (em_ty x) /\ S (em_additional x)).
  - destruct (m_signed_extensions m1) as [l|x]; cbn [on_left lift]; intros p e; repeat split; eapply Hi; eauto.
  - intros l l' [-> Hl].
    assert (Ex : extension_types (map (renumber_ext f) l) = map (fun x => (fst x, f (snd x))) (extension_types l)).
    { unfold extension_types. rewrite map_app, !map_map. reflexivity. }
    rewrite Ex. eapply remr_bind.
    + apply remr_map_err with (fe := renumber_err f); [reflexivity|].
      apply extensions_loop_renumbered with (S := S); auto; try apply Hm.
      apply Forall_forall. intros [i id] Hin. unfold extension_types in Hin. apply in_app_or in Hin.
      destruct Hin as [Hin|Hin]; apply in_map_iff in Hin; destruct Hin as (x & Hx & Hin); injection Hx as _ <-;
        destruct (Hl x Hin); assumption.
    + intros xs xs' <-. apply remr_eq; [apply remr_get|]. intros q. destruct (negb _); [apply remr_fail; reflexivity|].
      apply remr_eq; [destruct (m_spec_name_version m1); intros p e; repeat split|]. intros nv.
      apply remr_eq; [|intros; apply remr_ret; reflexivity].
      apply remr_same. intros p e x q' e' H. unfold lift in H.
      destruct (check_extensions xs (printed_spec_version nv) g) as [u|y] eqn:Ec; [discriminate|]. injection H as <- _ _.
      unfold check_extensions in Ec.
      repeat match type of Ec with context [match ?a with _ => _ end] => destruct a; try discriminate end;
        injection Ec as <-; reflexivity.
Qed.

Lemma extensions_renumbered b mk g : good_buffer b -> remr fs eq (decode_extensions b mk m1 g) (decode_extensions b mk m2 g).
Proof.
  intros Hb. unfold decode_extensions. eapply remr_bind; [apply remr_local, extensions_unmarked_renumbered, Hb|].
  intros x x' [Hx _]. apply remr_ret. exact Hx.
Qed.

Lemma call_renumbered b mk : good_buffer b -> remr fs eq (decode_as_call b mk m1) (decode_as_call b mk m2).
Proof.
  intros Hb. unfold decode_as_call, data_no_extensions. destruct (limit_length b (extensions_start mk)) as [b'|] eqn:El; [|apply remr_panic].
  eapply remr_bind; [apply remr_local, call_unmarked_renumbered, (good_limit b b' _ Hb El)|].
  intros [x q] [x' q'] [Hx Hq]. cbn [fst snd] in Hx, Hq. subst. destruct (Nat.eqb _ _); [apply remr_ret; reflexivity|apply remr_fail; reflexivity].
Qed.

Lemma mark_renumbered b : remr fs eq (@mark E ME b) (mark b).
Proof.
  apply remr_same. intros p e x q e' H. enough (Hx : x = CutSignable) by (subst x; reflexivity).
  unfold mark, bind, map_err in H. destruct (at_local 0 (get_compact U32 b) p e) as [[[[n st]|y| |] q1] e1]; try discriminate.
  - unfold catch in H. destruct (read_slice b st n q1 e1) as [[[l|y| |] q2] e2]; try discriminate. injection H as <- _ _. reflexivity.
  - injection H as <- _ _. reflexivity.
Qed.

Lemma transaction_renumbered b g : good_buffer b ->
  remr fs (fun t t' => t' = renumber_transaction f t) (parse_transaction b m1 g) (parse_transaction b m2 g).
Proof.
  intros Hb. unfold parse_transaction. apply remr_eq; [apply mark_renumbered|]. intros mk.
  eapply remr_bind; [apply extensions_renumbered, Hb|]. intros xs xs' <-.
  eapply remr_bind; [apply remr_catch with (fe := fs), call_renumbered, Hb|].
  intros [x|x] [y|y] Hxy; try contradiction; subst; apply remr_ret; reflexivity.
Qed.

Lemma transaction_unmarked_renumbered b g : good_buffer b -> remr fs eq (parse_transaction_unmarked b m1 g) (parse_transaction_unmarked b m2 g).
Proof.
  intros Hb. unfold parse_transaction_unmarked. eapply remr_bind; [apply remr_local with (R := eq)|intros x x' [Hx _]; apply remr_ret; exact Hx].
  eapply remr_bind; [apply call_unmarked_renumbered, Hb|]. intros call call' <-.
  eapply remr_bind; [apply extensions_unmarked_renumbered, Hb|]. intros xs xs' <-. apply remr_ret. reflexivity.
Qed.

Lemma unchecked_renumbered b : good_buffer b -> remr fu eq (decode_as_unchecked_extrinsic b m1) (decode_as_unchecked_extrinsic b m2).
Proof.
  intros Hb. unfold decode_as_unchecked_extrinsic. eapply remr_bind; [apply remr_local with (R := eq)|intros x x' [Hx _]; apply remr_ret; exact Hx].
  unfold decode_unchecked_body. rewrite (rm_params _ _ _ _ Hm), (rm_version _ _ _ _ Hm).
  pose proof (rm_params_in _ _ _ _ Hm) as Hi.
  apply remr_bind with (P := fun x x' => x' = renumber_params f x /\ (S (ep_address x) /\ S (ep_call x) /\ S (ep_signature x) /\ S (ep_extra x))).
  { destruct (m_extrinsic_type_params m1) as [ps|x]; cbn [on_left lift]; intros p e; repeat split; apply (Hi ps eq_refl). }
  intros ps ps' (-> & Ha & Hc & Hs & Hx). cbn [renumber_params ep_address ep_call ep_signature ep_extra].
  assert (T : forall id, S id -> remr fu eq (map_err (@UParsing ME) (decode_as_type_at_position b (m_types m1) id))
                                     (map_err UParsing (decode_as_type_at_position b (m_types m2) (f id)))).
  { intros id Hid. apply remr_map_err with (fe := renumber_err f); [reflexivity|]. apply type_r; auto. }
  apply remr_eq.
  { apply remr_same. intros p e x q e' H. unfold map_err in H. destruct (get_compact U32 b p e) as [[[l|y| |] q2] e2]; try discriminate.
    injection H as <- _ _. reflexivity. }
  intros n. apply remr_eq; [apply remr_get|]. intros st.
  cbv zeta. destruct (_ <? _)%N; [apply remr_fail; reflexivity|]. destruct (_ <? _)%N; [apply remr_fail; reflexivity|].
  apply remr_eq.
  { apply remr_same. intros p e x q e' H. unfold map_err, read_byte, bind, read_slice in H.
    destruct (rd b st 1 e) as [[[|x1 [|x2 l]]|y] e2]; try discriminate. injection H as <- _ _. reflexivity. }
  intros vb. apply remr_eq; [apply remr_set|]. intros _.
  apply remr_eq; [destruct (m_extrinsic_version m1); intros p e; repeat split|]. intros v.
  destruct (negb _); [apply remr_fail; reflexivity|].
  destruct (_ =? _)%N.
  - eapply remr_bind; [apply T, Hc|]. intros x x' <-. destruct (x_data x); try (apply remr_fail; reflexivity). apply remr_ret. reflexivity.
  - eapply remr_bind; [apply T, Ha|]. intros a a' <-. eapply remr_bind; [apply T, Hs|]. intros s s' <-.
    eapply remr_bind; [apply T, Hx|]. intros y y' <-. eapply remr_bind; [apply T, Hc|]. intros x x' <-.
    destruct (x_data x); try (apply remr_fail; reflexivity). apply remr_ret. reflexivity.
Qed.
End Metadata.
