(** C51: metadata with trimmed enums. *)
From Coq Require Import Lia.
From Verif Require Import Base Compact Types Indicators Decode Spec SpecSource SpecReach SpecTrim
  ProofBase ProofTables ProofFuel ProofSafe ProofSafe2 ProofRead ProofSpec.
Local Open Scope list_scope.

(** *** Relations between two runs *)

(** Exactly the same steps, related values; [m1] may run out of fuel. *)
Definition ex {X A1 A2} (R : A1 -> A2 -> Prop) (m1 : M unit X A1) (m2 : M unit X A2) : Prop :=
  forall p, match m1 p tt, m2 p tt with
            | (OutOfFuel, _, _), _ => True
            | (Ok a1, q1, _), (Ok a2, q2, _) => q1 = q2 /\ R a1 a2
            | (Err x, q1, _), (Err y, q2, _) => x = y /\ q1 = q2
            | (Panic, q1, _), (Panic, q2, _) => q1 = q2
            | _, _ => False
            end.

(** The same result, with related values and the same final position, or an error in [bad]. *)
Definition tr {X A1 A2} (bad : X -> Prop) (R : A1 -> A2 -> Prop) (m1 : M unit X A1) (m2 : M unit X A2) : Prop :=
  forall p, match m1 p tt with
            | (Ok a1, q, _) => exists a2, m2 p tt = (Ok a2, q, tt) /\ R a1 a2
            | (Err x, _, _) => bad x \/ fst (fst (m2 p tt)) = Err x
            | (Panic, _, _) => fst (fst (m2 p tt)) = Panic
            | (OutOfFuel, _, _) => True
            end.

Lemma ex_tr {X A1 A2} bad R (m1 : M unit X A1) (m2 : M unit X A2) : ex R m1 m2 -> tr bad R m1 m2.
Proof.
  intros H p. specialize (H p). destruct (m1 p tt) as [[[a|x| |] q] []], (m2 p tt) as [[[a2|x2| |] q2] []]; try tauto.
  - destruct H as [<- H]. eauto.
  - destruct H as [<- H]. right. reflexivity.
Qed.

Lemma ex_refl {X A} (m : M unit X A) : ex eq m m.
Proof. intros p. destruct (m p tt) as [[[a|x| |] q] []]; auto. Qed.

Lemma tr_refl {X A} bad (m : M unit X A) : tr bad eq m m.
Proof. apply ex_tr, ex_refl. Qed.

Lemma ex_ret {X A1 A2} (R : A1 -> A2 -> Prop) a1 a2 : R a1 a2 -> ex R (@ret unit X _ a1) (ret a2).
Proof. intros H p. cbn. auto. Qed.

Lemma tr_ret {X A1 A2} bad (R : A1 -> A2 -> Prop) a1 a2 : R a1 a2 -> tr bad R (@ret unit X _ a1) (ret a2).
Proof. intros H. apply ex_tr, ex_ret, H. Qed.

Lemma ex_fail {X A1 A2} (R : A1 -> A2 -> Prop) x : ex R (@fail unit X _ x) (fail x).
Proof. intros p. cbn. auto. Qed.

Lemma tr_fail {X A1 A2} bad (R : A1 -> A2 -> Prop) x : tr bad R (@fail unit X _ x) (fail x).
Proof. apply ex_tr, ex_fail. Qed.

Lemma ex_bind {X A1 A2 B1 B2} (P : A1 -> A2 -> Prop) (Q : B1 -> B2 -> Prop) (m1 : M unit X A1) m2 f1 f2 :
  ex P m1 m2 -> (forall a1 a2, P a1 a2 -> ex Q (f1 a1) (f2 a2)) -> ex Q (bind m1 f1) (bind m2 f2).
Proof.
  intros Hm Hf p. specialize (Hm p). unfold bind.
  destruct (m1 p tt) as [[[a|x| |] q] []], (m2 p tt) as [[[a2|x2| |] q2] []]; try tauto.
  destruct Hm as [<- Hm]. apply Hf, Hm.
Qed.

Lemma tr_bind {X A1 A2 B1 B2} (bad : X -> Prop) (P : A1 -> A2 -> Prop) (Q : B1 -> B2 -> Prop) (m1 : M unit X A1) m2 f1 f2 :
  tr bad P m1 m2 -> (forall a1 a2, P a1 a2 -> tr bad Q (f1 a1) (f2 a2)) -> tr bad Q (bind m1 f1) (bind m2 f2).
Proof.
  intros Hm Hf p. specialize (Hm p). unfold bind.
  destruct (m1 p tt) as [[[a|x| |] q] []].
  - destruct Hm as (a2 & -> & Hm). apply Hf, Hm.
  - destruct Hm as [Hm|Hm]; [left; exact Hm|right]. destruct (m2 p tt) as [[[]]]; cbn in *; congruence.
  - destruct (m2 p tt) as [[[]]]; cbn in *; congruence.
  - exact I.
Qed.

Lemma ex_map_err {X Y A1 A2} (R : A1 -> A2 -> Prop) (f : X -> Y) (m1 : M unit X A1) m2 :
  ex R m1 m2 -> ex R (map_err f m1) (map_err f m2).
Proof.
  intros H p. specialize (H p). unfold map_err.
  destruct (m1 p tt) as [[[a|x| |] q] []], (m2 p tt) as [[[a2|x2| |] q2] []]; try tauto.
  destruct H as [<- <-]. auto.
Qed.

Lemma tr_map_err {X Y A1 A2} (bad : X -> Prop) (bad' : Y -> Prop) (R : A1 -> A2 -> Prop) (f : X -> Y) (m1 : M unit X A1) m2 :
  (forall x, bad x -> bad' (f x)) -> tr bad R m1 m2 -> tr bad' R (map_err f m1) (map_err f m2).
Proof.
  intros Hf H p. specialize (H p). unfold map_err. destruct (m1 p tt) as [[[a|x| |] q] []].
  - destruct H as (a2 & -> & H). eauto.
  - destruct H as [H|H]; [left; auto|right]. destruct (m2 p tt) as [[[]]]; cbn in *; congruence.
  - destruct (m2 p tt) as [[[]]]; cbn in *; congruence.
  - exact I.
Qed.

Lemma ex_catch {X Y A1 A2} (R : A1 -> A2 -> Prop) (m1 : M unit X A1) m2 : ex R m1 m2 ->
  ex (fun a b : _ + X => match a, b with inl a, inl b => R a b | inr x, inr y => x = y | _, _ => False end)
     (@catch unit X Y A1 m1) (catch m2).
Proof.
  intros H p. specialize (H p). unfold catch.
  destruct (m1 p tt) as [[[a|x| |] q] []], (m2 p tt) as [[[a2|x2| |] q2] []]; tauto.
Qed.

Section Trim.
Variable data : bytes.
Local Notation b := (@slice_buffer unit data).
Variables types1 types2 : list ty.
Variable S : N -> Prop.
Hypothesis HT : trimmed_types S types1 types2.
Local Notation r1 := (@portable unit types1).
Local Notation r2 := (@portable unit types2).
Local Notation bad := unknown_variant.

Definition okt (t : ty) : Prop := Forall S (needs t).
Definition rt (t1 t2 : ty) : Prop := trimmed t1 t2 /\ okt t1.
Definition rh (h1 h2 : husked) : Prop :=
  rt (hu_ty h1) (hu_ty h2) /\ hu_info h1 = hu_info h2 /\ hu_checker h1 = hu_checker h2 /\ hu_id h1 = hu_id h2.
Definition ri (i1 i2 : ty_input) : Prop :=
  match i1, i2 with
  | Resolved t1 id1, Resolved t2 id2 => rt t1 t2 /\ id1 = id2
  | Symbol id1, Symbol id2 => S id1 /\ id1 = id2
  | _, _ => False
  end.
Definition okvs (vs : list variant) : Prop := forall v f, In v vs -> In f (v_fields v) -> S (f_ty f).

Lemma resolve_trim id : S id -> ex rt (resolve_ty r1 id) (resolve_ty r2 id).
Proof.
  intros H p. unfold resolve_ty. cbn [resolve portable]. unfold portable_resolve.
  pose proof (tt_types _ _ _ HT id H) as Ht. pose proof (tt_closed _ _ _ HT id tt) as Hc.
  cbn [resolve portable] in Hc. unfold portable_resolve in Hc.
  destruct (lookup types1 id) as [t1|], (lookup types2 id) as [t2|]; try tauto.
  split; [reflexivity|]. split; [exact Ht|]. exact (Hc t1 tt H eq_refl).
Qed.

Lemma trimmed_hinted t1 t2 : trimmed t1 t2 -> hinted_from_type t1 = hinted_from_type t2.
Proof. intros (Hp & _). unfold hinted_from_type. rewrite Hp. reflexivity. Qed.

Lemma trimmed_info t1 t2 : trimmed t1 t2 -> info_from_ty t1 = info_from_ty t2.
Proof. intros (Hp & _ & Hd & _). unfold info_from_ty. rewrite Hp, Hd. reflexivity. Qed.

Lemma trimmed_for c t1 t2 id : trimmed t1 t2 -> for_ty c t1 id = for_ty c t2 id.
Proof. intros (Hp & _). unfold for_ty, update_for_ty. rewrite Hp. reflexivity. Qed.

Lemma trimmed_def t1 t2 : trimmed t1 t2 ->
  (exists l1 l2, t_def t1 = TVariant l1 /\ t_def t2 = TVariant l2 /\ fewer l1 l2) \/
  ((forall l, t_def t1 <> TVariant l) /\ t_def t2 = t_def t1).
Proof.
  intros (_ & _ & _ & H). destruct (t_def t1) eqn:E1, (t_def t2) eqn:E2; try discriminate H;
    try (right; split; [intros l; discriminate|congruence]). left. eauto 6.
Qed.

Lemma needs_plain t : (hinted_from_type t = HtNone \/ hinted_from_type t = HtUncheckedExtrinsic \/
  hinted_from_type t = HtMultiSignature \/ exists i, hinted_from_type t = HtPalletSpecific i) -> needs t = mentions (t_def t).
Proof.
  rewrite hinted_classify. unfold hinted_of, needs, def_of. destruct (classify t); try reflexivity;
    intros [H|[H|[H|[i H]]]]; discriminate H.
Qed.

Lemma needs_array t n el : t_def t = TArray n el -> In el (needs t).
Proof. unfold needs. intros H. rewrite H. unfold def_of. rewrite H. destruct (classify t); left; reflexivity. Qed.

Lemma okt_in t j : okt t -> In j (needs t) -> S j.
Proof. unfold okt. rewrite Forall_forall. auto. Qed.

Lemma okt_variants t vs : okt t -> needs t = mentions (t_def t) -> t_def t = TVariant vs -> okvs vs.
Proof.
  intros H En Ed v f Hv Hf. apply (okt_in t _ H). rewrite En, Ed. cbn [mentions]. apply in_flat_map.
  exists v. split; [exact Hv|]. apply in_map. exact Hf.
Qed.

Lemma husk_loop_trim f1 : forall f2 t1 t2 id c acc, (f1 <= f2)%nat -> rt t1 t2 ->
  ex rh (husk_loop r1 f1 t1 id c acc) (husk_loop r2 f2 t2 id c acc).
Proof.
  induction f1 as [|f1 IH]; intros f2 t1 t2 id c acc Hf Ht; [intros p; exact I|].
  destruct f2 as [|f2]; [lia|]. cbn [husk_loop]. destruct Ht as [Ht Hok].
  rewrite <- (trimmed_hinted _ _ Ht), <- (trimmed_info _ _ Ht).
  remember (if info_is_empty (info_from_ty t1) then acc else acc ++ [info_from_ty t1]) as acc1.
  assert (Hret : ex rh (@ret unit reg_err _ (Husked acc1 c t1 id)) (ret (Husked acc1 c t2 id))).
  { apply ex_ret. split; [split; assumption|]. repeat split. }
  destruct (hinted_from_type t1) eqn:Hh; try exact Hret.
  assert (En : needs t1 = mentions (t_def t1)) by (apply needs_plain; auto).
  destruct (trimmed_def _ _ Ht) as [(l1 & l2 & E1 & E2 & _)|[_ E2]].
  { rewrite E1, E2. exact Hret. }
  rewrite E2. destruct (t_def t1) as [fs| | | | | |inner|] eqn:Hd; try exact Hret.
  - destruct fs as [|f [|f' fs]]; try exact Hret.
    assert (Hs : S (f_ty f)) by (apply (okt_in t1 _ Hok); rewrite En; left; reflexivity).
    eapply ex_bind; [apply ex_refl|]. intros c1 ? <-. eapply ex_bind; [apply resolve_trim; exact Hs|].
    intros t1' t2' Ht1. apply IH; [lia|exact Ht1].
  - assert (Hs : S inner) by (apply (okt_in t1 _ Hok); rewrite En; left; reflexivity).
    eapply ex_bind; [apply ex_refl|]. intros ? ? _. eapply ex_bind; [apply ex_refl|]. intros c1 ? <-.
    eapply ex_bind; [apply resolve_trim; exact Hs|]. intros t1' t2' Ht1. apply IH; [lia|exact Ht1].
Qed.

Lemma husk_trim id c : S id -> ex rh (husk_type r1 id c) (husk_type r2 id c).
Proof.
  intros H. unfold husk_type. eapply ex_bind; [apply ex_refl|]. intros c1 ? <-.
  eapply ex_bind; [apply resolve_trim; exact H|]. intros t1 t2 Ht. apply husk_loop_trim; [|exact Ht].
  unfold husk_fuel. cbn [reg_bound portable]. pose proof (tt_length _ _ _ HT). lia.
Qed.

(** A definition that is not an enum is the same; only used where enums are treated alike. *)
Lemma signature_trim f : S (f_ty f) -> ex eq (signature_from_field r1 f) (signature_from_field r2 f).
Proof.
  intros H. unfold signature_from_field. eapply ex_bind; [apply ex_catch, husk_trim, H|].
  intros [h1|] [h2|] Hh; try tauto; [|apply ex_refl]. destruct Hh as ((Ht & Hok) & _).
  destruct (trimmed_def _ _ Ht) as [(l1 & l2 & E1 & E2 & _)|[_ E2]]; [rewrite E1, E2; apply ex_refl|].
  rewrite E2. destruct (t_def (hu_ty h1)) as [| | |len el| | | |] eqn:Hd; try apply ex_refl.
  eapply ex_bind; [apply ex_catch, resolve_trim; apply (okt_in _ _ Hok), (needs_array _ _ _ Hd)|].
  intros [t1|] [t2|] Ht'; try tauto; [|apply ex_refl]. destruct Ht' as [Ht' _].
  destruct (trimmed_def _ _ Ht') as [(l1 & l2 & E3 & E4 & _)|[_ E4]]; [rewrite E3, E4; apply ex_refl|].
  rewrite E4. apply ex_refl.
Qed.

Lemma classify_trim t1 t2 : trimmed t1 t2 -> classify t1 = classify t2.
Proof. intros (Hp & _). unfold classify. rewrite Hp. reflexivity. Qed.

(** What is recognised: the same, or nothing because of an unknown variant. *)
Definition rk (t1 : ty) (k1 k2 : checked) : Prop :=
  match k1, k2 with
  | CNone, CNone => needs t1 = mentions (t_def t1)
  | CPalletSpecific n1 i1 vs1 it1, CPalletSpecific n2 i2 vs2 it2 =>
      n1 = n2 /\ i1 = i2 /\ fewer vs1 vs2 /\ okvs vs1 /\ it1 = it2
  | _, _ => k1 = k2 /\ k1 <> CNone /\ (forall n i vs it, k1 <> CPalletSpecific n i vs it)
  end.

Definition rejecting (k : checked) : Prop :=
  match k with CNone | CFixed _ | CPalletSpecific _ _ _ _ => True | _ => False end.

Definition missed (t1 t2 : ty) (p : nat) : Prop :=
  exists vs1 vs2 i, t_def t1 = TVariant vs1 /\ t_def t2 = TVariant vs2 /\ vs1 <> [] /\
    nth_error data p = Some i /\ by_index vs1 i = None /\
    checked_from_type b r1 t1 p tt = (Ok CNone, p, tt) /\
    exists k2 q2, checked_from_type b r2 t2 p tt = (Ok k2, q2, tt) /\ rejecting k2.

Lemma checked_runs t p : exists k q, checked_from_type b r2 t p tt = (Ok k, q, tt) /\ k = fst (checked_of types2 t (nth_error data p)).
Proof.
  destruct (checked_from_type_okf types2 (E := unit) data t p tt) as [H|(q' & e' & H)]; [eauto|].
  exfalso. pose proof (checked_from_type_post b r2 (good_slice data) (good_portable types2) t p tt) as Hp.
  rewrite H in Hp. exact (proj2 Hp).
Qed.

Lemma pick_error vs1 vs2 p : nth_error data p = None -> exists x, pick_variant b vs1 p p tt = (Err x, p, tt) /\ pick_variant b vs2 p p tt = (Err x, p, tt).
Proof.
  intros Hn. destruct (read_byte_total (E := unit) data p p tt) as [(x & Hx & _)|(_ & y & Hy)]; [congruence|].
  exists y. unfold pick_variant, bind. rewrite Hy. auto.
Qed.

Lemma find_okvs vs i v : okvs vs -> by_index vs i = Some v -> forall f, In f (v_fields v) -> S (f_ty f).
Proof. intros H Hf f. apply find_some in Hf. destruct Hf as [Hf _]. exact (H v f Hf). Qed.

(** The two ways of going through [checked_from_type]. *)
Lemma checked_trim t1 t2 p : rt t1 t2 ->
  missed t1 t2 p \/
  match checked_from_type b r1 t1 p tt, checked_from_type b r2 t2 p tt with
  | (OutOfFuel, _, _), _ => True
  | (Ok k1, q1, _), (Ok k2, q2, _) => q1 = q2 /\ rk t1 k1 k2
  | _, _ => False
  end.
Proof.
  intros [Ht Hok].
  assert (EE : forall m1 m2 : M unit parser_err checked, ex (rk t1) m1 m2 -> (exists k q, m2 p tt = (Ok k, q, tt)) ->
    match m1 p tt, m2 p tt with
    | (OutOfFuel, _, _), _ => True
    | (Ok k1, q1, _), (Ok k2, q2, _) => q1 = q2 /\ rk t1 k1 k2
    | _, _ => False
    end).
  { intros m1 m2 H (k & q & H2). specialize (H p). rewrite H2 in *. destruct (m1 p tt) as [[[a|x| |] q1] []]; exact H. }
  destruct (checked_runs t2 p) as (k2 & q2 & Hrun & Hk2).
  assert (HE : exists k q, checked_from_type b r2 t2 p tt = (Ok k, q, tt)) by eauto.
  assert (NN : needs t1 = mentions (t_def t1) -> ex (rk t1) (@ret unit parser_err _ CNone) (ret CNone)).
  { intros En. apply ex_ret. exact En. }
  (* the variants of a MultiSignature or a call enum, up to a missing one *)
  assert (PV : forall vs1 vs2 (k1 k2' : nat -> variant + parser_err -> M unit parser_err checked),
    t_def t1 = TVariant vs1 -> t_def t2 = TVariant vs2 -> fewer vs1 vs2 -> okvs vs1 ->
    needs t1 = mentions (t_def t1) ->
    checked_from_type b r1 t1 = bind get_pos (fun p => bind (catch (pick_variant b vs1 p)) (k1 p)) ->
    checked_from_type b r2 t2 = bind get_pos (fun p => bind (catch (pick_variant b vs2 p)) (k2' p)) ->
    (forall q x, k1 q (inr x) = ret CNone) -> (forall q x, k2' q (inr x) = ret CNone) ->
    rejecting k2 ->
    (forall v, (forall f, In f (v_fields v) -> S (f_ty f)) -> ex (rk t1) (k1 p (inl v)) (k2' p (inl v))) ->
    missed t1 t2 p \/
    match checked_from_type b r1 t1 p tt, checked_from_type b r2 t2 p tt with
    | (OutOfFuel, _, _), _ => True
    | (Ok k1, q1, _), (Ok k2, q2, _) => q1 = q2 /\ rk t1 k1 k2
    | _, _ => False
    end).
  { intros vs1 vs2 k1 k2' D1 D2 [Hk Hemp] Hv En B1 B2 Hn1 Hn2 Hrej Hsome.
    assert (C1 : forall o, pick_variant b vs1 p p tt = (o, p, tt) -> checked_from_type b r1 t1 p tt =
      match o with Ok v => k1 p (inl v) p tt | Err x => k1 p (inr x) p tt | Panic => (Panic, p, tt) | OutOfFuel => (OutOfFuel, p, tt) end).
    { intros o Ho. rewrite B1. unfold bind, get_pos, catch. rewrite Ho. destruct o; reflexivity. }
    assert (C2 : forall o, pick_variant b vs2 p p tt = (o, p, tt) -> checked_from_type b r2 t2 p tt =
      match o with Ok v => k2' p (inl v) p tt | Err x => k2' p (inr x) p tt | Panic => (Panic, p, tt) | OutOfFuel => (OutOfFuel, p, tt) end).
    { intros o Ho. rewrite B2. unfold bind, get_pos, catch. rewrite Ho. destruct o; reflexivity. }
    destruct (nth_error data p) as [i|] eqn:Hi.
    - pose proof (pick_variant_total (E := unit) data vs1 p p tt) as P1. pose proof (pick_variant_total (E := unit) data vs2 p p tt) as P2.
      rewrite Hi in P1, P2. destruct (by_index vs1 i) as [v|] eqn:F1.
      + right. rewrite (Hk i v F1) in P2. rewrite (C1 _ P1), (C2 _ P2). apply EE.
        * apply Hsome. exact (find_okvs _ _ _ Hv F1).
        * exists k2, q2. rewrite <- (C2 _ P2). exact Hrun.
      + destruct (by_index vs2 i) as [v|] eqn:F2.
        * left. exists vs1, vs2, i. repeat split; try assumption.
          -- intros ->. rewrite (Hemp eq_refl) in F2. discriminate F2.
          -- rewrite (C1 _ P1), Hn1. reflexivity.
          -- eauto.
        * right. rewrite (C1 _ P1), (C2 _ P2), Hn1, Hn2. cbn. auto.
    - right. destruct (pick_error vs1 vs2 p Hi) as (x & P1 & P2). rewrite (C1 _ P1), (C2 _ P2), Hn1, Hn2. cbn. auto. }
  pose proof (trimmed_hinted _ _ Ht) as Eh.
  assert (RJ : forall vs2, t_def t2 = TVariant vs2 -> needs t1 = mentions (t_def t1) -> 
     (hinted_from_type t1 = HtMultiSignature \/ exists i, hinted_from_type t1 = HtPalletSpecific i) -> rejecting k2).
  { intros vs2 D2 _ Hh. rewrite Eh in Hh. rewrite hinted_classify in Hh. rewrite Hk2. unfold checked_of. rewrite D2.
    unfold hinted_of in Hh.
    destruct (classify t2); try (destruct Hh as [Hh|[? Hh]]; discriminate Hh); try exact I.
    - destruct (nth_error data p); [|exact I]. destruct (by_index vs2 _); [|exact I]. destruct (Spec.variant_sig _ _ _); exact I.
    - destruct (nth_error data p); [|exact I]. destruct (by_index vs2 _); [|exact I]. destruct (Spec.pallet_items _ _ _) as [[]|]; exact I. }
  destruct (hinted_from_type t1) eqn:Hh.
  - right. apply EE; [|exact HE]. unfold checked_from_type. rewrite <- Eh, Hh. apply NN. apply needs_plain. auto.
  - right. apply EE; [|exact HE]. unfold checked_from_type. rewrite <- Eh, Hh. apply ex_ret. cbn. repeat split; discriminate.
  - right. apply EE; [|exact HE]. unfold checked_from_type. rewrite <- Eh, Hh. apply ex_ret. cbn. repeat split; discriminate.
  - right. apply EE; [|exact HE]. unfold checked_from_type. rewrite <- Eh, Hh. apply ex_ret. cbn. repeat split; discriminate.
  - assert (En : needs t1 = mentions (t_def t1)) by (apply needs_plain; auto).
    destruct (trimmed_def _ _ Ht) as [(vs1 & vs2 & D1 & D2 & Hf)|[Hno D2]].
    + eapply (PV vs1 vs2); try eassumption.
      * exact (okt_variants _ _ Hok En D1).
      * unfold checked_from_type. rewrite Hh, D1. reflexivity.
      * unfold checked_from_type. rewrite <- Eh, D2. reflexivity.
      * reflexivity.
      * reflexivity.
      * exact (RJ _ D2 En (or_introl eq_refl)).
      * intros v Hv. cbv beta iota. destruct (v_fields v) as [|f [|f' fs]] eqn:Ef; try exact (NN En).
        assert (Hs : S (f_ty f)) by (apply Hv; left; reflexivity).
        eapply ex_bind; [apply signature_trim, Hs|].
        intros sg ? <-. destruct sg; try exact (NN En);
          (eapply ex_bind; [apply ex_refl|]; intros ? ? _; apply ex_ret; cbn; repeat split; discriminate).
    + right. apply EE; [|exact HE]. unfold checked_from_type. rewrite <- Eh, Hh, D2.
      destruct (t_def t1) as [|vs| | | | | |] eqn:D1; try exact (NN En). destruct (Hno vs eq_refl).
  - assert (En : needs t1 = mentions (t_def t1)) by (apply needs_plain; eauto).
    destruct (trimmed_def _ _ Ht) as [(vs1 & vs2 & D1 & D2 & Hf)|[Hno D2]].
    + eapply (PV vs1 vs2); try eassumption.
      * exact (okt_variants _ _ Hok En D1).
      * unfold checked_from_type. rewrite Hh, D1. reflexivity.
      * unfold checked_from_type. rewrite <- Eh, D2. reflexivity.
      * reflexivity.
      * reflexivity.
      * exact (RJ _ D2 En (or_intror (ex_intro _ _ eq_refl))).
      * intros v Hv. cbv beta iota. destruct (v_fields v) as [|f [|f' fs]] eqn:Ef; try exact (NN En).
        assert (Hs : S (f_ty f)) by (apply Hv; left; reflexivity).
        eapply ex_bind; [apply ex_catch, resolve_trim, Hs|].
        intros [u1|] [u2|] Hu; try destruct Hu; try exact (NN En). 
        match goal with H : trimmed u1 u2 |- _ => rename H into Hu end.
        match goal with H : okt u1 |- _ => rename H into Hou end.
        rewrite <- (trimmed_hinted _ _ Hu). destruct (hinted_from_type u1) eqn:Hh2; try exact (NN En).
        destruct (pitem_eqb _ _); [|exact (NN En)].
        destruct (trimmed_def _ _ Hu) as [(ws1 & ws2 & D3 & D4 & Hf2)|[Hno2 D4]].
        -- rewrite D3, D4. eapply ex_bind; [apply ex_refl|]. intros ? ? _. apply ex_ret.
           cbn. repeat split; try apply Hf2; [apply (trimmed_info _ _ Hu)|].
           apply (okt_variants u1 ws1 Hou); [apply needs_plain; eauto|exact D3].
        -- rewrite D4. destruct (t_def u1) as [|ws| | | | | |] eqn:D3; try exact (NN En). destruct (Hno2 ws eq_refl).
    + right. apply EE; [|exact HE]. unfold checked_from_type. rewrite <- Eh, Hh, D2.
      destruct (t_def t1) as [|vs| | | | | |] eqn:D1; try exact (NN En). destruct (Hno vs eq_refl).
  - right. apply EE; [|exact HE]. unfold checked_from_type. rewrite <- Eh, Hh. apply ex_ret. cbn. repeat split; discriminate.
  - right. apply EE; [|exact HE]. unfold checked_from_type. rewrite <- Eh, Hh. apply NN. apply needs_plain. auto.
Qed.

Section Body.
Variable d1 d2 : ty_input -> propagated -> M unit parser_err (ext pdata).
Hypothesis Hd : forall i1 i2 p, ri i1 i2 -> tr bad eq (d1 i1 p) (d2 i2 p).

Lemma fields_loop_trim fs c : (forall f, In f fs -> S (f_ty f)) -> tr bad eq (fields_loop d1 fs c) (fields_loop d2 fs c).
Proof.
  induction fs as [|f fs IH]; intros H; cbn [fields_loop]; [apply tr_refl|].
  eapply tr_bind; [apply tr_refl|]. intros p ? <-. eapply tr_bind; [apply Hd; split; [apply H; left; reflexivity|reflexivity]|]. intros d ? <-.
  eapply tr_bind; [apply IH; intros g Hg; apply H; right; exact Hg|]. intros l ? <-. apply tr_refl.
Qed.

Lemma decode_fields_trim fs c : (forall f, In f fs -> S (f_ty f)) -> tr bad eq (decode_fields d1 fs c) (decode_fields d2 fs c).
Proof.
  intros H. unfold decode_fields. destruct fs as [|x1 [|x2 fs]]; try (apply fields_loop_trim; exact H).
  eapply tr_bind; [apply tr_refl|]. intros ? ? _. apply fields_loop_trim; exact H.
Qed.

Lemma tuple_loop_trim ids c : Forall S ids -> tr bad eq (tuple_loop r1 d1 ids c) (tuple_loop r2 d2 ids c).
Proof.
  induction 1 as [|i ids Hi _ IH]; cbn [tuple_loop]; [apply tr_refl|].
  eapply tr_bind; [apply ex_tr, ex_map_err, resolve_trim, Hi|]. intros t1 t2 Ht. rewrite (trimmed_for c t1 t2 i (proj1 Ht)).
  eapply tr_bind; [apply tr_refl|]. intros p ? <-.
  eapply tr_bind; [apply Hd; split; [exact Ht|reflexivity]|]. intros d ? <-. eapply tr_bind; [exact IH|]. intros l ? <-. apply tr_refl.
Qed.

Lemma elements_loop_trim n h1 h2 : rh h1 h2 -> tr bad eq (elements_loop d1 n h1) (elements_loop d2 n h2).
Proof.
  intros (H & _ & Hc & Hi). induction n as [|n IH]; cbn [elements_loop]; [apply tr_refl|]. rewrite Hc.
  eapply tr_bind; [apply Hd; split; [exact H|exact Hi]|]. intros d ? <-. eapply tr_bind; [exact IH|]. intros l ? <-. apply tr_refl.
Qed.

Lemma decode_elements_trim el n p : S el -> tr bad eq (decode_elements_set r1 d1 el n p) (decode_elements_set r2 d2 el n p).
Proof.
  intros H. unfold decode_elements_set. eapply tr_bind; [apply tr_refl|]. intros ? ? _.
  eapply tr_bind; [apply ex_tr, ex_map_err, husk_trim, H|]. intros h1 h2 Hh. destruct (n =? 0)%N.
  - destruct Hh as ((Ht & Hok) & Hi & Hc & _). rewrite ?Hi, ?Hc. apply tr_refl.
  - eapply tr_bind; [apply elements_loop_trim, Hh|]. destruct Hh as ((Ht & Hok) & Hi & Hc & _). rewrite ?Hi. intros l ? <-. apply tr_refl.
Qed.

Lemma pick_trim vs1 vs2 p : fewer vs1 vs2 -> tr bad (fun v1 v2 => v1 = v2 /\ exists i, by_index vs1 i = Some v1) (pick_variant b vs1 p) (pick_variant b vs2 p).
Proof.
  intros [Hf _]. unfold pick_variant. eapply tr_bind; [apply tr_refl|]. intros i ? <-.
  destruct (find_variant vs1 i) as [v|] eqn:E1.
  - pose proof (Hf i v E1) as E2. change (by_index vs2 i) with (find_variant vs2 i) in E2. rewrite E2. apply tr_ret. eauto.
  - intros q. left. exists p. reflexivity.
Qed.

Lemma decode_variant_trim vs1 vs2 : fewer vs1 vs2 -> okvs vs1 -> tr bad eq (decode_variant b d1 vs1) (decode_variant b d2 vs2).
Proof.
  intros Hf H. unfold decode_variant. eapply tr_bind; [apply tr_refl|]. intros p ? <-.
  eapply tr_bind; [apply pick_trim, Hf|]. intros v ? [<- (i & Hv)]. eapply tr_bind; [apply tr_refl|]. intros ? ? _.
  eapply tr_bind; [apply decode_fields_trim; exact (find_okvs _ _ _ H Hv)|]. intros l ? <-. apply tr_refl.
Qed.

Lemma bits_trim store order id : S store -> S order ->
  tr bad eq (decode_bit_sequence b r1 store order id) (decode_bit_sequence b r2 store order id).
Proof.
  intros Hs Ho. unfold decode_bit_sequence. eapply tr_bind; [apply tr_refl|]. intros p ? <-.
  eapply tr_bind; [apply ex_tr, ex_map_err|].
  - unfold find_bit_order_ty. eapply ex_bind; [apply resolve_trim, Ho|]. intros t1 t2 [Ht _].
    destruct (trimmed_def _ _ Ht) as [(l1 & l2 & E1 & E2 & _)|[_ E2]]; [rewrite E1, E2; apply ex_refl|].
    rewrite E2, (proj1 Ht). apply ex_refl.
  - intros o ? <-. eapply tr_bind; [apply ex_tr, ex_map_err, resolve_trim, Hs|]. intros t1 t2 [Ht _].
    destruct (trimmed_def _ _ Ht) as [(l1 & l2 & E1 & E2 & _)|[_ E2]]; [rewrite E1, E2; apply tr_refl|].
    rewrite E2. apply tr_refl.
Qed.

Lemma decode_plain_trim t1 t2 id p : rt t1 t2 -> needs t1 = mentions (t_def t1) ->
  tr bad eq (decode_plain b r1 d1 t1 id p) (decode_plain b r2 d2 t2 id p).
Proof.
  intros [Ht Hok] En. unfold decode_plain. destruct (trimmed_def _ _ Ht) as [(l1 & l2 & E1 & E2 & Hf)|[Hno E2]].
  - rewrite E1, E2. pose proof (okt_variants _ _ Hok En E1) as Hv. eapply tr_bind; [apply tr_refl|]. intros ? ? _.
    destruct l1 as [|v1 l1].
    + rewrite (proj2 Hf eq_refl). apply tr_refl.
    + destruct l2 as [|v2 l2].
      { exfalso. destruct Hf as [Hf _]. specialize (Hf (v_index v1) v1).
        unfold by_index in Hf. cbn [find] in Hf. rewrite N.eqb_refl in Hf. discriminate (Hf eq_refl). }
      eapply tr_bind; [apply decode_variant_trim; assumption|]. intros d ? <-. apply tr_refl.
  - rewrite E2. unfold okt in Hok. rewrite En in Hok.
    destruct (t_def t1) as [fs|vs|el|len el|els|x|inner|s o]; cbn [mentions] in *; try apply tr_refl.
    + eapply tr_bind; [apply decode_fields_trim|intros ? ? <-; apply tr_refl]. intros f Hf. rewrite Forall_map, Forall_forall in Hok. auto.
    + destruct (Hno vs eq_refl).
    + eapply tr_bind; [apply tr_refl|]. intros n ? <-. apply decode_elements_trim. inversion Hok; assumption.
    + apply decode_elements_trim. inversion Hok; assumption.
    + destruct els as [|i1 [|i2 ids]];
        try (eapply tr_bind; [apply tuple_loop_trim, Hok|]; intros ? ? <-; apply tr_refl).
      eapply tr_bind; [apply tr_refl|]. intros ? ? _.
      eapply tr_bind; [apply tuple_loop_trim, Hok|]. intros ? ? <-; apply tr_refl.
    + eapply tr_bind; [apply tr_refl|]. intros ? ? _. eapply tr_bind; [apply tr_refl|]. intros c ? <-.
      apply Hd. split; [inversion Hok; assumption|reflexivity].
    + inversion Hok as [|x l Hs Hl]; subst. inversion Hl as [|x l Ho _]; subst.
      eapply tr_bind; [apply tr_refl|]. intros ? ? _. eapply tr_bind; [apply bits_trim; assumption|]. intros ? ? <-; apply tr_refl.
Qed.

(** A missed variant: the trimmed side refuses, unless both complain about a compact. *)
Lemma missed_trim t1 t2 id p pos : missed t1 t2 pos ->
  match bind (checked_from_type b r1 t1) (fun k => decode_checked b r1 d1 k t1 id p) pos tt with
  | (Err x, _, _) => bad x \/
      fst (fst (bind (checked_from_type b r2 t2) (fun k => decode_checked b r2 d2 k t2 id p) pos tt)) = Err x
  | _ => False
  end.
Proof.
  intros (vs1 & vs2 & i & D1 & D2 & Hne & Hi & Hby & C1 & k2 & q2 & C2 & Hrej). 
  assert (B : forall f : checked -> M unit parser_err (ext pdata), bind (checked_from_type b r2 t2) f pos tt = f k2 q2 tt) by (intros f; unfold bind; rewrite C2; reflexivity).
  rewrite B. clear B. assert (B : forall f : checked -> M unit parser_err (ext pdata), bind (checked_from_type b r1 t1) f pos tt = f CNone pos tt) by (intros f; unfold bind; rewrite C1; reflexivity).
  rewrite B. clear B. cbn [decode_checked]. unfold decode_plain at 1. rewrite D1.
  destruct (compact_at (checker_of p)) as [cid|] eqn:Hc.
  - assert (RC : forall B (f : unit -> M unit parser_err B) q, bind (reject_compact_m (checker_of p)) f q tt =
        (Err (PRegistry (RInternal (UnexpectedCompactInsides cid))), q, tt)).
    { intros B f q. unfold bind, reject_compact_m, map_err, lift, reject_compact. rewrite Hc. reflexivity. }
    rewrite RC. right. destruct k2; try destruct Hrej; cbn [decode_checked].
    + unfold decode_plain. rewrite D2, RC. reflexivity.
    + unfold parse_fixed, block_compact, bind. rewrite Hc. reflexivity.
    + rewrite RC. reflexivity.
  - assert (RC : forall B (f : unit -> M unit parser_err B) q, bind (reject_compact_m (checker_of p)) f q tt = f tt q tt).
    { intros B f q. unfold bind, reject_compact_m, map_err, lift, reject_compact. rewrite Hc. reflexivity. }
    rewrite RC. destruct vs1 as [|v vs1]; [destruct Hne; reflexivity|].
    pose proof (pick_variant_total (E := unit) data (v :: vs1) pos pos tt) as P. rewrite Hi, Hby in P.
    unfold decode_variant, bind, get_pos. rewrite P. left. exists pos. reflexivity.
Qed.

Lemma decode_body_trim i1 i2 p : ri i1 i2 -> tr bad eq (decode_body b r1 d1 i1 p) (decode_body b r2 d2 i2 p).
Proof.
  intros Hi. unfold decode_body. eapply tr_bind with (P := fun x y => rt (fst x) (fst y) /\ snd x = snd y).
  - destruct i1 as [t1 id1|id1], i2 as [t2 id2|id2]; cbn [ri] in Hi; try tauto.
    + apply tr_ret. exact Hi.
    + destruct Hi as [Hi <-]. eapply tr_bind; [apply ex_tr, ex_map_err, resolve_trim, Hi|].
      intros t1 t2 Ht. apply tr_ret. split; [exact Ht|reflexivity].
  - intros [t1 id1] [t2 id2] [Ht Hid]. cbn [fst snd] in Ht, Hid. subst id2. rewrite <- (trimmed_info _ _ (proj1 Ht)).
    intros pos. destruct (checked_trim t1 t2 pos Ht) as [Hm|Hk].
    + pose proof (missed_trim t1 t2 id1 (add_info p (info_from_ty t1)) pos Hm) as H.
      destruct (bind (checked_from_type b r1 t1) _ pos tt) as [[[a|x| |] q] []]; try destruct H; auto.
    + unfold bind.
      destruct (checked_from_type b r1 t1 pos tt) as [[[k1|x1| |] q1] []]; try (destruct Hk; fail);
        destruct (checked_from_type b r2 t2 pos tt) as [[[k2|x2| |] q2] []]; try (destruct Hk; fail); try exact I.
      destruct Hk as [<- Hk]. generalize q1. change (tr bad eq (decode_checked b r1 d1 k1 t1 id1 (add_info p (info_from_ty t1)))
        (decode_checked b r2 d2 k2 t2 id1 (add_info p (info_from_ty t1)))).
      assert (Heq : k1 = k2 -> k1 <> CNone -> (forall n i vs it, k1 <> CPalletSpecific n i vs it) ->
        tr bad eq (decode_checked b r1 d1 k1 t1 id1 (add_info p (info_from_ty t1)))
        (decode_checked b r2 d2 k2 t2 id1 (add_info p (info_from_ty t1)))).
      { intros <- H1 H2. destruct k1; cbn [decode_checked]; try apply tr_refl; [destruct H1; reflexivity|].
        exfalso. exact (H2 _ _ _ _ eq_refl). }
      destruct k1, k2; cbn [rk] in Hk; try (destruct Hk as (H1 & H2 & H3); exact (Heq H1 H2 H3)).
      * apply decode_plain_trim; [exact Ht|exact Hk].
      * destruct Hk as (<- & <- & Hf & Hv & <-). cbn [decode_checked]. eapply tr_bind; [apply tr_refl|]. intros ? ? _.
        eapply tr_bind; [apply decode_variant_trim; assumption|]. intros d ? <-. apply tr_refl.
Qed.
End Body.

Lemma decode_trim f1 : forall f2 i1 i2 p, (f1 <= f2)%nat -> ri i1 i2 -> tr bad eq (decode b r1 f1 i1 p) (decode b r2 f2 i2 p).
Proof.
  induction f1 as [|f1 IH]; intros f2 i1 i2 p H Hi; [intros q; exact I|].
  destruct f2 as [|f2]; [lia|]. cbn [decode]. apply decode_body_trim; [|exact Hi].
  intros j1 j2 p' Hj. apply IH; [lia|exact Hj].
Qed.

Lemma with_type_trim id p : S id -> tr bad eq (decode_with_type b r1 (Symbol id) p) (decode_with_type b r2 (Symbol id) p).
Proof.
  intros Hid. apply decode_trim; [|split; [exact Hid|reflexivity]].
  unfold decode_fuel. apply le_n_S, Nat.mul_le_mono_l. cbn [reg_bound portable]. pose proof (tt_length _ _ _ HT). lia.
Qed.

End Trim.
