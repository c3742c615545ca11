(** C50: only the types reachable from the requested one matter. *)
From Coq Require Import Lia.
From Verif Require Import Base Compact Types Indicators Decode Spec SpecSource SpecReach
  ProofBase ProofTables ProofFuel ProofSafe ProofSafe2.
Local Open Scope list_scope.

(** [m1] and [m2] agree unless [m1] runs out of fuel, and the values of [m1] satisfy [Q]. *)
Definition lemq {E X A} (Q : A -> Prop) (m1 m2 : M E X A) : Prop :=
  forall p e, fst (fst (m1 p e)) = OutOfFuel \/
              (m1 p e = m2 p e /\ forall a q e', m1 p e = (Ok a, q, e') -> Q a).

Definition anyv {A} (_ : A) : Prop := True.

Lemma lemq_refl {E X A} (m : M E X A) : lemq anyv m m.
Proof. right. split; [reflexivity|]. intros. exact I. Qed.

Lemma lemq_weaken {E X A} (Q Q' : A -> Prop) (m1 m2 : M E X A) : lemq Q m1 m2 -> (forall a, Q a -> Q' a) -> lemq Q' m1 m2.
Proof. intros H HQ p e. destruct (H p e) as [F|[Eq F]]; [left; exact F|right; split; [exact Eq|]; eauto]. Qed.

Lemma lemq_ret {E X A} (Q : A -> Prop) (a : A) : Q a -> lemq Q (@ret E X A a) (ret a).
Proof. intros H. right. split; [reflexivity|]. intros x q e' Hx. injection Hx as <- _ _. exact H. Qed.

Lemma lemq_fail {E X A} (Q : A -> Prop) (x : X) : lemq Q (@fail E X A x) (fail x).
Proof. right. split; [reflexivity|]. intros a q e' H. discriminate H. Qed.

Lemma lemq_bind {E X A B} (P : A -> Prop) (Q : B -> Prop) (m1 m2 : M E X A) (f1 f2 : A -> M E X B) :
  lemq P m1 m2 -> (forall a, P a -> lemq Q (f1 a) (f2 a)) -> lemq Q (bind m1 f1) (bind m2 f2).
Proof.
  intros Hm Hf p e. unfold bind. destruct (Hm p e) as [H|[H HP]].
  - left. destruct (m1 p e) as [[o q] e1]. cbn in H. subst o. reflexivity.
  - rewrite <- H. destruct (m1 p e) as [[[a|x| |] q] e1]; try (right; split; [reflexivity|]; intros; discriminate).
    apply Hf. eapply HP. reflexivity.
Qed.

Lemma lemq_map_err {E X Y A} (Q : A -> Prop) (f : X -> Y) (m1 m2 : M E X A) : lemq Q m1 m2 -> lemq Q (map_err f m1) (map_err f m2).
Proof.
  intros H p e. unfold map_err. destruct (H p e) as [F|[Eq F]].
  - left. destruct (m1 p e) as [[o q] e1]. cbn in F. subst o. reflexivity.
  - right. rewrite <- Eq. destruct (m1 p e) as [[[a|x| |] q] e1]; split; try reflexivity; intros b q' e' Hb; try discriminate.
    injection Hb as <- _ _. eapply F. reflexivity.
Qed.

Lemma lemq_catch {E X Y A} (Q : A -> Prop) (m1 m2 : M E X A) : lemq Q m1 m2 ->
  lemq (fun r : A + X => match r with inl a => Q a | inr _ => True end) (@catch E X Y A m1) (catch m2).
Proof.
  intros H p e. unfold catch. destruct (H p e) as [F|[Eq F]].
  - left. destruct (m1 p e) as [[o q] e1]. cbn in F. subst o. reflexivity.
  - right. rewrite <- Eq. destruct (m1 p e) as [[[a|x| |] q] e1]; split; try reflexivity; intros b q' e' Hb; try discriminate.
    + injection Hb as <- _ _. eapply F. reflexivity.
    + injection Hb as <- _ _. exact I.
Qed.

Section Reach.
Context {E : Type}.
Variable b : buffer E.
Variables r1 r2 : registry E.
Variable S : N -> Prop.
Hypothesis Hclosed : closed r1 S.
Hypothesis Hsame : same_on S r1 r2.
Hypothesis Hbound : (reg_bound r1 <= reg_bound r2)%nat.

Definition okt (t : ty) : Prop := Forall S (needs t).
Definition okh (hu : husked) : Prop := okt (hu_ty hu) /\ S (hu_id hu).
Definition oki (i : ty_input) : Prop := match i with Resolved t id => okt t | Symbol id => S id end.
Definition okvs (vs : list variant) : Prop := forall v f, In v vs -> In f (v_fields v) -> S (f_ty f).

Lemma resolve_reach id : S id -> lemq okt (resolve_ty r1 id) (resolve_ty r2 id).
Proof.
  intros H p e. right. unfold resolve_ty. rewrite <- (Hsame id e H).
  destruct (resolve r1 id e) as [[t|x] e'] eqn:Er; split; try reflexivity; intros a q e2 Ha; try discriminate.
  injection Ha as <- _ _. exact (Hclosed _ _ _ _ H Er).
Qed.

Lemma needs_plain t : (hinted_from_type t = HtNone \/ hinted_from_type t = HtUncheckedExtrinsic \/
  hinted_from_type t = HtMultiSignature \/ exists i, hinted_from_type t = HtPalletSpecific i) -> needs t = mentions (t_def t).
Proof.
  rewrite hinted_classify. unfold hinted_of, needs, def_of. destruct (classify t); try reflexivity;
    intros [H|[H|[H|[i H]]]]; discriminate H.
Qed.

Lemma needs_array t n el : t_def t = TArray n el -> In el (needs t).
Proof. unfold needs. intros H. rewrite H. unfold def_of. rewrite H. destruct (classify t); left; reflexivity. Qed.

Lemma okt_in t j : okt t -> In j (needs t) -> S j.
Proof. unfold okt. rewrite Forall_forall. auto. Qed.

Lemma okt_variants t vs : okt t -> needs t = mentions (t_def t) -> t_def t = TVariant vs -> okvs vs.
Proof.
  intros H En Ed v f Hv Hf. apply (okt_in t _ H). rewrite En, Ed. cbn [mentions]. apply in_flat_map.
  exists v. split; [exact Hv|]. apply in_map. exact Hf.
Qed.

Lemma husk_loop_reach f1 : forall f2 t id c acc, (f1 <= f2)%nat -> okt t -> S id ->
  lemq okh (husk_loop r1 f1 t id c acc) (husk_loop r2 f2 t id c acc).
Proof.
  induction f1 as [|f1 IH]; intros f2 t id c acc Hf Ht Hid; [intros p e; left; reflexivity|].
  destruct f2 as [|f2]; [lia|]. cbn [husk_loop].
  remember (if info_is_empty (info_from_ty t) then acc else acc ++ [info_from_ty t]) as acc1.
  assert (Hret : lemq okh (@ret E reg_err _ (Husked acc1 c t id)) (ret (Husked acc1 c t id))).
  { apply lemq_ret. split; assumption. }
  destruct (hinted_from_type t) eqn:Hh; try exact Hret.
  assert (En : needs t = mentions (t_def t)) by (apply needs_plain; auto).
  destruct (t_def t) as [fs| | | | | |inner|] eqn:Hd; try exact Hret.
  - destruct fs as [|f [|f' fs]]; try exact Hret.
    assert (Hs : S (f_ty f)) by (apply (okt_in t _ Ht); rewrite En; left; reflexivity).
    eapply lemq_bind; [apply lemq_refl|]. intros c1 _. eapply lemq_bind; [apply resolve_reach; exact Hs|].
    intros t1 Ht1. apply IH; [lia|exact Ht1|exact Hs].
  - assert (Hs : S inner) by (apply (okt_in t _ Ht); rewrite En; left; reflexivity).
    eapply lemq_bind; [apply lemq_refl|]. intros _ _. eapply lemq_bind; [apply lemq_refl|]. intros c1 _.
    eapply lemq_bind; [apply resolve_reach; exact Hs|]. intros t1 Ht1. apply IH; [lia|exact Ht1|exact Hs].
Qed.

Lemma husk_reach id c : S id -> lemq okh (husk_type r1 id c) (husk_type r2 id c).
Proof.
  intros H. unfold husk_type. eapply lemq_bind; [apply lemq_refl|]. intros c1 _.
  eapply lemq_bind; [apply resolve_reach; exact H|]. intros t Ht. apply husk_loop_reach; [|exact Ht|exact H].
  unfold husk_fuel. lia.
Qed.

Lemma signature_reach f : S (f_ty f) -> lemq anyv (signature_from_field r1 f) (signature_from_field r2 f).
Proof.
  intros H. unfold signature_from_field. eapply lemq_bind; [apply lemq_catch, husk_reach, H|].
  intros [hu|] Hh; [|apply lemq_refl]. destruct Hh as [Hh _].
  destruct (t_def (hu_ty hu)) as [| | |len el| | | |] eqn:Hd; try apply lemq_refl.
  eapply lemq_bind; [apply lemq_catch, resolve_reach; apply (okt_in _ _ Hh), (needs_array _ _ _ Hd)|].
  intros [t|] _; apply lemq_refl.
Qed.

Definition okc (t : ty) (k : checked) : Prop :=
  match k with
  | CNone => needs t = mentions (t_def t)
  | CPalletSpecific _ _ vs _ => okvs vs
  | _ => True
  end.

Lemma pick_reach vs p : okvs vs ->
  lemq (fun v => forall f, In f (v_fields v) -> S (f_ty f)) (pick_variant b vs p) (pick_variant b vs p).
Proof.
  intros H. unfold pick_variant. eapply lemq_bind; [apply lemq_refl|]. intros i _.
  destruct (find_variant vs i) as [v|] eqn:Ef; [|apply lemq_fail]. apply lemq_ret. intros f Hf.
  apply find_some in Ef. destruct Ef as [Ef _]. exact (H v f Ef Hf).
Qed.

Lemma lemq_step {E' X A} (Q : A -> Prop) (m1 m2 m3 : M E' X A) : m2 = m3 -> lemq Q m1 m2 -> lemq Q m1 m3.
Proof. intros <-. auto. Qed.

Lemma checked_reach t : okt t -> lemq (okc t) (checked_from_type b r1 t) (checked_from_type b r2 t).
Proof.
  intros Ht. unfold checked_from_type. destruct (hinted_from_type t) eqn:Hh; try (apply lemq_ret; exact I).
  - apply lemq_ret. apply needs_plain. auto.
  - assert (En : needs t = mentions (t_def t)) by (apply needs_plain; auto).
    assert (N : lemq (okc t) (@ret E parser_err _ CNone) (ret CNone)) by (apply lemq_ret; exact En).
    destruct (t_def t) as [|vs| | | | | |] eqn:Hd; try exact N. rewrite <- Hd in En.
    pose proof (okt_variants t vs Ht En Hd) as Hv.
    eapply lemq_bind; [apply lemq_refl|]. intros p _. eapply lemq_bind; [apply lemq_catch, pick_reach, Hv|].
    intros [v|] Hp; [|exact N]. destruct (v_fields v) as [|f [|f' fs]] eqn:Ef; try exact N.
    assert (Hs : S (f_ty f)) by (apply Hp; rewrite ?Ef; left; reflexivity).
    eapply lemq_bind; [apply signature_reach, Hs|].
    intros [] _; try exact N; (eapply lemq_bind; [apply lemq_refl|]; intros _ _; apply lemq_ret; exact I).
  - assert (En : needs t = mentions (t_def t)) by (apply needs_plain; eauto).
    assert (N : lemq (okc t) (@ret E parser_err _ CNone) (ret CNone)) by (apply lemq_ret; exact En).
    destruct (t_def t) as [|vs| | | | | |] eqn:Hd; try exact N. rewrite <- Hd in En.
    pose proof (okt_variants t vs Ht En Hd) as Hv.
    eapply lemq_bind; [apply lemq_refl|]. intros p _. eapply lemq_bind; [apply lemq_catch, pick_reach, Hv|].
    intros [v|] Hp; [|exact N]. destruct (v_fields v) as [|f [|f' fs]] eqn:Ef; try exact N.
    assert (Hs : S (f_ty f)) by (apply Hp; rewrite ?Ef; left; reflexivity).
    eapply lemq_bind; [apply lemq_catch, resolve_reach, Hs|]. intros [vt|] Hvt; [|exact N].
    destruct (hinted_from_type vt) eqn:Hh2; try exact N. destruct (pitem_eqb _ _); [|exact N].
    destruct (t_def vt) as [|vs2| | | | | |] eqn:Hd2; try exact N.
    eapply lemq_bind; [apply lemq_refl|]. intros _ _. apply lemq_ret. cbn [okc].
    apply (okt_variants vt vs2 Hvt); [apply needs_plain; eauto|exact Hd2].
  - apply lemq_ret. apply needs_plain. auto.
Qed.

Section Body.
Variable d1 d2 : ty_input -> propagated -> M E parser_err (ext pdata).
Hypothesis Hd : forall i p, oki i -> lemq anyv (d1 i p) (d2 i p).

Lemma fields_loop_reach fs c : (forall f, In f fs -> S (f_ty f)) -> lemq anyv (fields_loop d1 fs c) (fields_loop d2 fs c).
Proof.
  induction fs as [|f fs IH]; intros H; cbn [fields_loop]; [apply lemq_refl|].
  eapply lemq_bind; [apply lemq_refl|]. intros p _. eapply lemq_bind; [apply Hd, H; left; reflexivity|]. intros d _.
  eapply lemq_bind; [apply IH; intros g Hg; apply H; right; exact Hg|]. intros; apply lemq_refl.
Qed.

Lemma decode_fields_reach fs c : (forall f, In f fs -> S (f_ty f)) -> lemq anyv (decode_fields d1 fs c) (decode_fields d2 fs c).
Proof.
  intros H. unfold decode_fields. destruct fs as [|x1 [|x2 fs]]; try (apply fields_loop_reach; exact H).
  eapply lemq_bind; [apply lemq_refl|]. intros. apply fields_loop_reach; exact H.
Qed.

Lemma tuple_loop_reach ids c : Forall S ids -> lemq anyv (tuple_loop r1 d1 ids c) (tuple_loop r2 d2 ids c).
Proof.
  induction 1 as [|i ids Hi _ IH]; cbn [tuple_loop]; [apply lemq_refl|].
  eapply lemq_bind; [apply lemq_map_err, resolve_reach, Hi|]. intros t Ht. eapply lemq_bind; [apply lemq_refl|]. intros p _.
  eapply lemq_bind; [apply Hd; exact Ht|]. intros d _. eapply lemq_bind; [exact IH|]. intros; apply lemq_refl.
Qed.

Lemma elements_loop_reach n hu : okh hu -> lemq anyv (elements_loop d1 n hu) (elements_loop d2 n hu).
Proof.
  intros [H _]. induction n as [|n IH]; cbn [elements_loop]; [apply lemq_refl|].
  eapply lemq_bind; [apply Hd; exact H|]. intros d _. eapply lemq_bind; [exact IH|]. intros; apply lemq_refl.
Qed.

Lemma decode_elements_reach el n p : S el -> lemq anyv (decode_elements_set r1 d1 el n p) (decode_elements_set r2 d2 el n p).
Proof.
  intros H. unfold decode_elements_set. eapply lemq_bind; [apply lemq_refl|]. intros _ _.
  eapply lemq_bind; [apply lemq_map_err, husk_reach, H|]. intros hu Hh. destruct (n =? 0)%N; [apply lemq_refl|].
  eapply lemq_bind; [apply elements_loop_reach, Hh|]. intros; apply lemq_refl.
Qed.

Lemma decode_variant_reach vs : okvs vs -> lemq anyv (decode_variant b d1 vs) (decode_variant b d2 vs).
Proof.
  intros H. unfold decode_variant. eapply lemq_bind; [apply lemq_refl|]. intros p _.
  eapply lemq_bind; [apply pick_reach, H|]. intros v Hv. eapply lemq_bind; [apply lemq_refl|]. intros _ _.
  eapply lemq_bind; [apply decode_fields_reach, Hv|]. intros; apply lemq_refl.
Qed.

Lemma bits_reach store order id : S store -> S order ->
  lemq anyv (decode_bit_sequence b r1 store order id) (decode_bit_sequence b r2 store order id).
Proof.
  intros Hs Ho. unfold decode_bit_sequence. eapply lemq_bind; [apply lemq_refl|]. intros p _.
  eapply lemq_bind; [apply lemq_map_err|].
  - unfold find_bit_order_ty. eapply lemq_bind; [apply resolve_reach, Ho|]. intros t _. apply lemq_refl.
  - intros o _. eapply lemq_bind; [apply lemq_map_err, resolve_reach, Hs|]. intros t _. apply lemq_refl.
Qed.

Lemma decode_plain_reach t id p : okt t -> needs t = mentions (t_def t) ->
  lemq anyv (decode_plain b r1 d1 t id p) (decode_plain b r2 d2 t id p).
Proof.
  intros Ht En. unfold okt in Ht. rewrite En in Ht. unfold decode_plain.
  destruct (t_def t) as [fs|vs|el|len el|els|x|inner|s o]; cbn [mentions] in *; try apply lemq_refl.
  - eapply lemq_bind; [apply decode_fields_reach|intros; apply lemq_refl]. intros f Hf. rewrite Forall_map, Forall_forall in Ht. auto.
  - eapply lemq_bind; [apply lemq_refl|]. intros _ _. destruct vs as [|v vs]; [apply lemq_refl|].
    eapply lemq_bind; [apply decode_variant_reach|intros; apply lemq_refl]. intros w f Hw Hf.
    rewrite Forall_forall in Ht. apply Ht. apply in_flat_map. exists w. split; [exact Hw|apply in_map, Hf].
  - eapply lemq_bind; [apply lemq_refl|]. intros n _. apply decode_elements_reach. inversion Ht; assumption.
  - apply decode_elements_reach. inversion Ht; assumption.
  - destruct els as [|i1 [|i2 ids]];
      try (eapply lemq_bind; [apply tuple_loop_reach, Ht|]; intros; apply lemq_refl).
    eapply lemq_bind; [apply lemq_refl|]. intros _ _.
    eapply lemq_bind; [apply tuple_loop_reach, Ht|]. intros; apply lemq_refl.
  - eapply lemq_bind; [apply lemq_refl|]. intros _ _. eapply lemq_bind; [apply lemq_refl|]. intros c _.
    apply Hd. inversion Ht; assumption.
  - inversion Ht as [|x l Hs Hl]; subst. inversion Hl as [|x l Ho _]; subst.
    eapply lemq_bind; [apply lemq_refl|]. intros _ _. eapply lemq_bind; [apply bits_reach; assumption|]. intros; apply lemq_refl.
Qed.

Lemma decode_body_reach i p : oki i -> lemq anyv (decode_body b r1 d1 i p) (decode_body b r2 d2 i p).
Proof.
  intros Hi. unfold decode_body. eapply lemq_bind with (P := fun ti => okt (fst ti)).
  - destruct i as [t id|id]; cbn [oki] in Hi; [apply lemq_ret; exact Hi|].
    eapply lemq_bind; [apply lemq_map_err, resolve_reach, Hi|]. intros t Ht. apply lemq_ret. exact Ht.
  - intros [t id] Ht. cbn [fst] in Ht. eapply lemq_bind; [apply checked_reach, Ht|].
    intros k Hk. destruct k; cbn [decode_checked okc] in *; try apply lemq_refl.
    + apply decode_plain_reach; assumption.
    + eapply lemq_bind; [apply lemq_refl|]. intros _ _. eapply lemq_bind; [apply decode_variant_reach, Hk|].
      intros; apply lemq_refl.
Qed.
End Body.

Lemma decode_reach f1 : forall f2 i p, (f1 <= f2)%nat -> oki i -> lemq anyv (decode b r1 f1 i p) (decode b r2 f2 i p).
Proof.
  induction f1 as [|f1 IH]; intros f2 i p H Hi; [intros q e; left; reflexivity|].
  destruct f2 as [|f2]; [lia|]. cbn [decode]. apply decode_body_reach; [|exact Hi].
  intros i' p' Hi'. apply IH; [lia|exact Hi'].
Qed.

Lemma with_type_reach id p pos e : good_buffer b -> good_registry r1 -> S id -> cycle_check (checker_of p) = [] ->
  decode_with_type b r1 (Symbol id) p pos e = decode_with_type b r2 (Symbol id) p pos e.
Proof.
  intros Hb Hr Hid Hc. pose proof (decode_type_runs b r1 Hb Hr id p pos e Hc) as Hrun. unfold decode_with_type in *.
  destruct (decode_reach (decode_fuel b r1) (decode_fuel b r2) (Symbol id) p) with (p := pos) (e := e) as [F|[F _]];
    [|exact Hid| |exact F].
  - unfold decode_fuel. apply le_n_S. apply Nat.mul_le_mono_l. lia.
  - exfalso. destruct (decode b r1 (decode_fuel b r1) (Symbol id) p pos e) as [[o q] e1]. cbn [fst] in F. subst o. exact Hrun.
Qed.

End Reach.

Lemma same_on_sym {E} S (r1 r2 : registry E) : same_on S r1 r2 -> same_on S r2 r1.
Proof. intros H id e Hs. symmetry. apply H, Hs. Qed.

Lemma closed_same {E} S (r1 r2 : registry E) : same_on S r1 r2 -> closed r1 S -> closed r2 S.
Proof. intros H Hc id e t e' Hs Hr. rewrite <- (H id e Hs) in Hr. exact (Hc _ _ _ _ Hs Hr). Qed.

Lemma hinted_reach {E} (b : buffer E) (r1 r2 : registry E) S id p pos e : good_buffer b -> good_registry r1 -> good_registry r2 ->
  closed r1 S -> same_on S r1 r2 -> S id -> cycle_check (checker_of p) = [] ->
  decode_with_type b r1 (Symbol id) p pos e = decode_with_type b r2 (Symbol id) p pos e.
Proof.
  intros Hb G1 G2 Hc Hs Hid Hp. destruct (Nat.le_ge_cases (reg_bound r1) (reg_bound r2)) as [L|L].
  - exact (with_type_reach b r1 r2 S Hc Hs L id p pos e Hb G1 Hid Hp).
  - symmetry. exact (with_type_reach b r2 r1 S (closed_same _ _ _ Hs Hc) (same_on_sym _ _ _ Hs) L id p pos e Hb G2 Hid Hp).
Qed.

(** *** The other functions of the API *)
From Verif Require Import Sign Storage Unchecked.

Definition eqm {E X A} (m1 m2 : M E X A) : Prop := forall p e, m1 p e = m2 p e.

Lemma eqm_refl {E X A} (m : M E X A) : eqm m m.
Proof. intros p e. reflexivity. Qed.

Lemma eqm_bind {E X A B} (m1 m2 : M E X A) (f1 f2 : A -> M E X B) :
  eqm m1 m2 -> (forall a, eqm (f1 a) (f2 a)) -> eqm (bind m1 f1) (bind m2 f2).
Proof. intros Hm Hf p e. unfold bind. rewrite (Hm p e). destruct (m2 p e) as [[[a|x| |] q] e1]; try reflexivity. apply Hf. Qed.

Lemma eqm_bind_val {E X A B} (m1 m2 : M E X A) (f1 f2 : A -> M E X B) :
  eqm m1 m2 -> (forall a p e q e', m1 p e = (Ok a, q, e') -> f1 a q e' = f2 a q e') -> eqm (bind m1 f1) (bind m2 f2).
Proof.
  intros Hm Hf p e. unfold bind. pose proof (Hf) as H. rewrite <- (Hm p e).
  destruct (m1 p e) as [[[a|x| |] q] e1] eqn:E1; try reflexivity. exact (Hf a p e q e1 E1).
Qed.

Lemma eqm_map_err {E X Y A} (f : X -> Y) (m1 m2 : M E X A) : eqm m1 m2 -> eqm (map_err f m1) (map_err f m2).
Proof. intros H p e. unfold map_err. rewrite (H p e). reflexivity. Qed.

Lemma eqm_catch {E X Y A} (m1 m2 : M E X A) : eqm m1 m2 -> eqm (@catch E X Y A m1) (catch m2).
Proof. intros H p e. unfold catch. rewrite (H p e). reflexivity. Qed.

Lemma eqm_at_local {E X A} n (m1 m2 : M E X A) : eqm m1 m2 -> eqm (at_local n m1) (at_local n m2).
Proof. intros H p e. unfold at_local. rewrite (H n e). reflexivity. Qed.

Section Registry.
Context {E : Type}.
Variables r1 r2 : registry E.
Variable S : N -> Prop.
Hypothesis Hclosed : closed r1 S.
Hypothesis Hsame : same_on S r1 r2.
Hypothesis Hr1 : good_registry r1.
Hypothesis Hr2 : good_registry r2.

Lemma type_reach b id p : good_buffer b -> S id -> cycle_check (checker_of p) = [] ->
  eqm (decode_with_type b r1 (Symbol id) p) (decode_with_type b r2 (Symbol id) p).
Proof. intros Hb Hid Hp pos e. exact (hinted_reach b r1 r2 S id p pos e Hb Hr1 Hr2 Hclosed Hsame Hid Hp). Qed.

Lemma at_reach b id : good_buffer b -> S id -> eqm (decode_as_type_at_position b r1 id) (decode_as_type_at_position b r2 id).
Proof. intros Hb Hid. apply type_reach; auto. Qed.

Lemma all_reach b id : good_buffer b -> S id -> eqm (decode_all_body b r1 id) (decode_all_body b r2 id).
Proof.
  intros Hb Hid. unfold decode_all_body. apply eqm_bind; [apply eqm_refl|]. intros _.
  apply eqm_bind; [apply at_reach; assumption|]. intros; apply eqm_refl.
Qed.

Lemma all_as_type_reach b id e : good_buffer b -> S id -> decode_all_as_type b r1 id e = decode_all_as_type b r2 id e.
Proof. intros Hb Hid. unfold decode_all_as_type. rewrite (all_reach b id Hb Hid 0%nat e). reflexivity. Qed.

Lemma extensions_loop_reach b l : good_buffer b -> Forall (fun x => S (snd x)) l ->
  eqm (extensions_loop b r1 l) (extensions_loop b r2 l).
Proof.
  intros Hb. induction 1 as [|[i id] l Hx _ IH]; cbn [extensions_loop]; [apply eqm_refl|].
  apply eqm_bind; [apply type_reach; auto|]. intros x. apply eqm_bind; [exact IH|]. intros; apply eqm_refl.
Qed.

Section Keys.
Variables blake2_128 twox_64 : bytes -> bytes.

Lemma key_part_reach h id b : good_buffer b -> S id ->
  eqm (key_part_decode blake2_128 twox_64 h id b r1) (key_part_decode blake2_128 twox_64 h id b r2).
Proof.
  intros Hb Hid.
  assert (C : forall len hash, eqm (check_hash len hash id b r1) (check_hash len hash id b r2)).
  { intros len hash. unfold check_hash. apply eqm_bind; [apply eqm_refl|]. intros p. apply eqm_bind; [apply eqm_refl|]. intros s.
    destruct (_ =? _)%N; [|apply eqm_refl]. apply eqm_bind; [apply eqm_refl|]. intros _.
    apply eqm_bind; [apply eqm_map_err, type_reach; auto|]. intros; apply eqm_refl. }
  destruct h; cbn [key_part_decode]; try apply eqm_refl; try apply C.
  apply eqm_bind; [apply eqm_map_err, type_reach; auto|]. intros; apply eqm_refl.
Qed.

Lemma key_parts_reach b : good_buffer b -> forall hs ids, Forall S ids ->
  eqm (key_parts blake2_128 twox_64 hs ids b r1) (key_parts blake2_128 twox_64 hs ids b r2).
Proof.
  intros Hb. induction hs as [|h hs IH]; intros ids Hi; [apply eqm_refl|]. destruct Hi as [|id ids Hid Hi]; [apply eqm_refl|].
  cbn [key_parts]. apply eqm_bind; [apply key_part_reach; assumption|]. intros x.
  apply eqm_bind; [apply IH, Hi|]. intros; apply eqm_refl.
Qed.

Lemma storage_reach kb vb entry : good_buffer kb -> good_buffer vb -> entry_in r1 S (en_ty entry) ->
  eqm (decode_as_storage_entry blake2_128 twox_64 kb vb entry r1) (decode_as_storage_entry blake2_128 twox_64 kb vb entry r2).
Proof.
  intros Hk Hv He. unfold decode_as_storage_entry. destruct (Nat.ltb _ _); [apply eqm_refl|].
  assert (V : forall id, S id -> eqm (decode_all_m vb r1 id) (decode_all_m vb r2 id)).
  { intros id Hid. unfold decode_all_m. apply eqm_bind; [apply eqm_at_local, all_reach; assumption|]. intros; apply eqm_refl. }
  destruct (en_ty entry) as [value|hashers key value]; cbn [entry_in] in He.
  - destruct (negb _); [apply eqm_refl|]. apply eqm_bind; [apply eqm_map_err, V, He|]. intros; apply eqm_refl.
  - destruct He as (Hkey & Hval & Ht). apply eqm_bind.
    + unfold process_key_mapped. apply eqm_bind; [|intros; apply eqm_refl]. apply eqm_at_local. unfold process_key_body.
      apply eqm_bind; [|intros; apply eqm_refl].
      assert (T : eqm
        (do t <- map_err (fun x => ParsingKey (PRegistry x)) (resolve_ty r1 key);
         match t_def t with
         | TTuple elems =>
             if Nat.eqb (List.length elems) (List.length hashers)
             then do content <- key_parts blake2_128 twox_64 hashers elems kb r1; ret (KTuple content (info_from_ty t))
             else fail MultipleHashesNumberMismatch
         | _ => fail MultipleHashesNotATuple
         end)
        (do t <- map_err (fun x => ParsingKey (PRegistry x)) (resolve_ty r2 key);
         match t_def t with
         | TTuple elems =>
             if Nat.eqb (List.length elems) (List.length hashers)
             then do content <- key_parts blake2_128 twox_64 hashers elems kb r2; ret (KTuple content (info_from_ty t))
             else fail MultipleHashesNumberMismatch
         | _ => fail MultipleHashesNotATuple
         end)).
      { apply eqm_bind_val.
        - apply eqm_map_err. intros p e. unfold resolve_ty. rewrite (Hsame key e Hkey). reflexivity.
        - intros t p e q e' Hr. destruct (t_def t) as [| | | |ids| | |] eqn:Ed; try reflexivity.
          destruct (Nat.eqb _ _); [|reflexivity]. unfold map_err, resolve_ty in Hr.
          destruct (resolve r1 key e) as [[t'|x] e1] eqn:Er; [|discriminate Hr]. injection Hr as -> _ _.
          apply eqm_bind; [apply key_parts_reach; [exact Hk|exact (Ht _ _ _ _ Er Ed)]|]. intros; apply eqm_refl. }
      destruct hashers as [|h [|h' hs]]; [exact T| |exact T].
      apply eqm_bind; [apply key_part_reach; assumption|]. intros; apply eqm_refl.
    + intros k. apply eqm_bind; [apply eqm_map_err, V, Hval|]. intros; apply eqm_refl.
Qed.
End Keys.
End Registry.

Section Metadata.
Context {E ME : Type}.
Variables m1 m2 : metadata E ME.
Variable S : N -> Prop.
Hypothesis Hm : same_metadata S m1 m2.
Hypothesis Hr1 : good_registry (m_types m1).
Hypothesis Hr2 : good_registry (m_types m2).

Lemma call_unmarked_reach b : good_buffer b -> eqm (decode_as_call_unmarked b m1) (decode_as_call_unmarked b m2).
Proof.
  intros Hb. unfold decode_as_call_unmarked. rewrite <- (sm_call _ _ _ Hm). pose proof (sm_call_in _ _ _ Hm) as Hi.
  destruct (m_call_ty m1) as [id|x]; [|apply eqm_refl].
  apply eqm_bind_val; [apply eqm_refl|]. intros id' p e q e' Hid. injection Hid as <- _ _.
  apply eqm_bind; [|intros; apply eqm_refl]. apply eqm_map_err.
  exact (type_reach (m_types m1) (m_types m2) S (sm_closed _ _ _ Hm) (sm_types _ _ _ Hm) Hr1 Hr2 b id propagated_new Hb (Hi id eq_refl) eq_refl).
Qed.

Lemma extensions_unmarked_reach b g : good_buffer b -> eqm (decode_extensions_unmarked b m1 g) (decode_extensions_unmarked b m2 g).
Proof.
  intros Hb. unfold decode_extensions_unmarked. rewrite <- (sm_extensions _ _ _ Hm), <- (sm_spec _ _ _ Hm).
  pose proof (sm_extensions_in _ _ _ Hm) as Hi. destruct (m_signed_extensions m1) as [l|x]; [|apply eqm_refl].
  apply eqm_bind_val; [apply eqm_refl|]. intros l' p e q e' Hl. injection Hl as <- _ _.
  apply eqm_bind; [|intros; apply eqm_refl]. apply eqm_map_err.
  apply (extensions_loop_reach (m_types m1) (m_types m2) S (sm_closed _ _ _ Hm) (sm_types _ _ _ Hm) Hr1 Hr2 b _ Hb).
  apply Forall_forall. intros [i id] Hin. unfold extension_types in Hin. apply in_app_or in Hin.
  destruct Hin as [Hin|Hin]; apply in_map_iff in Hin; destruct Hin as (x & Hx & Hin); injection Hx as _ <-;
    destruct (Hi l x eq_refl Hin); assumption.
Qed.

Lemma extensions_reach b mk g : good_buffer b -> eqm (decode_extensions b mk m1 g) (decode_extensions b mk m2 g).
Proof.
  intros Hb. unfold decode_extensions. apply eqm_bind; [apply eqm_at_local, extensions_unmarked_reach, Hb|]. intros; apply eqm_refl.
Qed.

Lemma call_reach b mk : good_buffer b -> eqm (decode_as_call b mk m1) (decode_as_call b mk m2).
Proof.
  intros Hb. unfold decode_as_call, data_no_extensions. destruct (limit_length b (extensions_start mk)) as [b'|] eqn:El; [|apply eqm_refl].
  apply eqm_bind; [|intros; apply eqm_refl]. apply eqm_at_local, call_unmarked_reach. apply (good_limit b b' _ Hb El).
Qed.

Lemma transaction_reach b g : good_buffer b -> eqm (parse_transaction b m1 g) (parse_transaction b m2 g).
Proof.
  intros Hb. unfold parse_transaction. apply eqm_bind; [apply eqm_refl|]. intros mk.
  apply eqm_bind; [apply extensions_reach, Hb|]. intros xs. apply eqm_bind; [apply eqm_catch, call_reach, Hb|]. intros; apply eqm_refl.
Qed.

Lemma transaction_unmarked_reach b g : good_buffer b -> eqm (parse_transaction_unmarked b m1 g) (parse_transaction_unmarked b m2 g).
Proof.
  intros Hb. unfold parse_transaction_unmarked. apply eqm_bind; [apply eqm_at_local|intros; apply eqm_refl].
  apply eqm_bind; [apply call_unmarked_reach, Hb|]. intros call. apply eqm_bind; [apply extensions_unmarked_reach, Hb|].
  intros; apply eqm_refl.
Qed.

Lemma unchecked_reach b : good_buffer b -> eqm (decode_as_unchecked_extrinsic b m1) (decode_as_unchecked_extrinsic b m2).
Proof.
  intros Hb. unfold decode_as_unchecked_extrinsic. apply eqm_bind; [apply eqm_at_local|intros; apply eqm_refl].
  unfold decode_unchecked_body. rewrite <- (sm_params _ _ _ Hm), <- (sm_version _ _ _ Hm).
  pose proof (sm_params_in _ _ _ Hm) as Hi. destruct (m_extrinsic_type_params m1) as [ps|x]; [|apply eqm_refl].
  apply eqm_bind_val; [apply eqm_refl|]. intros ps' p e q e' Hps. injection Hps as <- _ _.
  destruct (Hi ps eq_refl) as (Ha & Hc & Hs & Hx).
  assert (T : forall id, S id -> eqm (map_err (@UParsing ME) (decode_as_type_at_position b (m_types m1) id))
                                     (map_err UParsing (decode_as_type_at_position b (m_types m2) id))).
  { intros id Hid. apply eqm_map_err.
    exact (at_reach (m_types m1) (m_types m2) S (sm_closed _ _ _ Hm) (sm_types _ _ _ Hm) Hr1 Hr2 b id Hb Hid). }
  apply eqm_bind; [apply eqm_refl|]. intros n. apply eqm_bind; [apply eqm_refl|]. intros st.
  cbv zeta. destruct (_ <? _)%N; [apply eqm_refl|]. destruct (_ <? _)%N; [apply eqm_refl|].
  apply eqm_bind; [apply eqm_refl|]. intros vb. apply eqm_bind; [apply eqm_refl|]. intros _.
  apply eqm_bind; [apply eqm_refl|]. intros v. destruct (negb _); [apply eqm_refl|].
  destruct (_ =? _)%N; [apply eqm_bind; [apply T, Hc|intros; apply eqm_refl]|].
  apply eqm_bind; [apply T, Ha|]. intros a. apply eqm_bind; [apply T, Hs|]. intros s.
  apply eqm_bind; [apply T, Hx|]. intros x. apply eqm_bind; [apply T, Hc|]. intros; apply eqm_refl.
Qed.
End Metadata.
