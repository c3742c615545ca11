(** Element types: [husk_type] of the code against [peel] of the specification; the
    recursion equations of the specification; value-directed cycle check. *)
From Coq Require Import Lia ZifyBool ZifyNat ZifyN.
From Verif Require Import Base Compact Types Indicators Decode Spec ProofBase ProofCompact
  ProofUtf8 ProofLeaf ProofRead ProofTables.
Local Open Scope list_scope.

Definition is_some {A} (o : option A) : bool := match o with Some _ => true | None => false end.

(** ** Induction over values *)

Section ValueInd.
Variable P : value -> Prop.
Hypothesis HNum : forall n, P (VNum n).
Hypothesis HInt : forall z, P (VInt z).
Hypothesis HBool : forall b, P (VBool b).
Hypothesis HStr : forall l, P (VStr l).
Hypothesis HStruct : forall l, Forall P l -> P (VStruct l).
Hypothesis HTuple : forall l, Forall P l -> P (VTuple l).
Hypothesis HEnum : forall i l, Forall P l -> P (VEnum i l).
Hypothesis HNever : P VNever.
Hypothesis HSeq : forall l, Forall P l -> P (VSeq l).
Hypothesis HArr : forall l, Forall P l -> P (VArr l).
Hypothesis HCompact : forall v, P v -> P (VCompact v).
Hypothesis HBits : forall n l, P (VBits n l).
Hypothesis HRaw : forall l, P (VRaw l).
Hypothesis HEra : forall e, P (VEra e).
Hypothesis HSig : forall i l, P (VSig i l).
Hypothesis HItem : forall i j l, Forall P l -> P (VItem i j l).

Fixpoint value_ind' (v : value) : P v :=
  let go := fix go (l : list value) : Forall P l :=
    match l with
    | [] => Forall_nil P
    | x :: r => Forall_cons x (value_ind' x) (go r)
    end in
  match v with
  | VNum n => HNum n
  | VInt z => HInt z
  | VBool b => HBool b
  | VStr l => HStr l
  | VStruct l => HStruct l (go l)
  | VTuple l => HTuple l (go l)
  | VEnum i l => HEnum i l (go l)
  | VNever => HNever
  | VSeq l => HSeq l (go l)
  | VArr l => HArr l (go l)
  | VCompact x => HCompact x (value_ind' x)
  | VBits n l => HBits n l
  | VRaw l => HRaw l
  | VEra e => HEra e
  | VSig i l => HSig i l
  | VItem i j l => HItem i j l (go l)
  end.
End ValueInd.

(** Size of a value, to allow induction through transparent wrappers. *)
Fixpoint vsize (v : value) : nat :=
  let sum := fix sum (l : list value) : nat :=
    match l with [] => 0 | x :: r => vsize x + sum r end in
  S (match v with
     | VStruct l | VTuple l | VEnum _ l | VSeq l | VArr l | VItem _ _ l => sum l
     | VCompact x => vsize x
     | _ => 0
     end).

Fixpoint vsizes (l : list value) : nat :=
  match l with [] => 0 | x :: r => vsize x + vsizes r end.

Lemma vsize_struct l : vsize (VStruct l) = S (vsizes l).
Proof. cbn. f_equal. Qed.
Lemma vsize_tuple l : vsize (VTuple l) = S (vsizes l).
Proof. cbn. f_equal. Qed.
Lemma vsize_enum i l : vsize (VEnum i l) = S (vsizes l).
Proof. cbn. f_equal. Qed.
Lemma vsize_seq l : vsize (VSeq l) = S (vsizes l).
Proof. cbn. f_equal. Qed.
Lemma vsize_arr l : vsize (VArr l) = S (vsizes l).
Proof. cbn. f_equal. Qed.
Lemma vsize_item i j l : vsize (VItem i j l) = S (vsizes l).
Proof. cbn. f_equal. Qed.
Lemma vsize_compact v : vsize (VCompact v) = S (vsize v).
Proof. reflexivity. Qed.

Section Peel.
Variable types : list ty.

(** ** Value-directed cycle check: what the decoder's cycle list lets through *)

Definition fresh (cyc : list N) (id : N) : bool := negb (existsb (N.eqb id) cyc).

Definition all2 {A} (f : A -> value -> bool) : list A -> list value -> bool :=
  fix go (ids : list A) (vs : list value) {struct vs} : bool :=
    match ids, vs with
    | [], [] => true
    | i :: ids', v :: vs' => f i v && go ids' vs'
    | _, _ => false
    end.

Definition allv (f : value -> bool) : list value -> bool :=
  fix go (vs : list value) : bool :=
    match vs with
    | [] => true
    | v :: vs' => f v && go vs'
    end.

Fixpoint nocyc (cyc : list N) (id : N) (v : value) {struct v} : bool :=
  match lookup types id with
  | None => false
  | Some t =>
      match v with
      | VStruct vs =>
          match def_of t with
          | Some (TComposite fs) =>
              all2 (fun f v => fresh cyc (f_ty f) && nocyc (cyc ++ [f_ty f]) (f_ty f) v) fs vs
          | _ => false
          end
      | VTuple vs =>
          match def_of t with
          | Some (TTuple ids) =>
              all2 (fun i v => fresh cyc i && nocyc (cyc ++ [i]) i v) ids vs
          | _ => false
          end
      | VEnum i vs =>
          match def_of t with
          | Some (TVariant variants) =>
              match by_index variants i with
              | Some var => all2 (fun f v => nocyc [f_ty f] (f_ty f) v) (v_fields var) vs
              | None => false
              end
          | _ => false
          end
      | VItem i j vs =>
          match def_of t with
          | Some (TVariant variants) =>
              match by_index variants i with
              | Some var =>
                  match pallet_items types t var with
                  | Some (_, items) =>
                      match by_index items j with
                      | Some item => all2 (fun f v => nocyc [f_ty f] (f_ty f) v) (v_fields item) vs
                      | None => false
                      end
                  | None => false
                  end
              | None => false
              end
          | _ => false
          end
      | VSeq vs =>
          match def_of t with
          | Some (TSequence el) =>
              is_some (peel_from types [] el) && allv (nocyc [el] el) vs
          | _ => false
          end
      | VArr vs =>
          match def_of t with
          | Some (TArray _ el) =>
              is_some (peel_from types cyc el) && allv (nocyc (cyc ++ [el]) el) vs
          | _ => false
          end
      | VCompact v' =>
          match def_of t with
          | Some (TCompact inner) => fresh cyc inner && nocyc (cyc ++ [inner]) inner v'
          | _ => false
          end
      | _ => true
      end
  end.

(** ** The chain of transparent types *)

Inductive chain : list N -> bool -> hint -> N -> list info -> list N -> bool -> hint -> N -> Prop :=
| chain_end seen cpt h id t :
    fresh seen id = true -> lookup types id = Some t -> transparent t = None ->
    chain seen cpt h id (own_info t) (seen ++ [id]) cpt h id
| chain_field seen cpt h id t f l seen' cpt' h' final :
    fresh seen id = true -> lookup types id = Some t ->
    transparent t = Some (f_ty f, false) -> t_def t = TComposite [f] ->
    chain (seen ++ [id]) cpt (or_label h (field_label f)) (f_ty f) l seen' cpt' h' final ->
    chain seen cpt h id (own_info t ++ l) seen' cpt' h' final
| chain_compact seen h id t inner l seen' cpt' h' final :
    fresh seen id = true -> lookup types id = Some t ->
    transparent t = Some (inner, true) -> t_def t = TCompact inner ->
    chain (seen ++ [id]) true h inner l seen' cpt' h' final ->
    chain seen false h id (own_info t ++ l) seen' cpt' h' final.

Lemma transparent_false t i : transparent t = Some (i, false) ->
  exists f, t_def t = TComposite [f] /\ i = f_ty f /\ def_of t = Some (TComposite [f]).
Proof.
  unfold transparent, def_of. destruct (classify t); try discriminate.
  destruct (strs_eqb _ _); try discriminate.
  destruct (t_def t) as [[|f [|]]| | | | | | |]; try discriminate.
  intros H; injection H as <-. eauto.
Qed.

Lemma transparent_true t i : transparent t = Some (i, true) ->
  t_def t = TCompact i /\ def_of t = Some (TCompact i).
Proof.
  unfold transparent, def_of. destruct (classify t); try discriminate.
  destruct (strs_eqb _ _); try discriminate.
  destruct (t_def t) as [[|f [|]]| | | | | | |]; try discriminate.
  intros H; injection H as <-. eauto.
Qed.

Lemma transparent_plain t x : transparent t = Some x -> classify t = SpPlain.
Proof. unfold transparent. destruct (classify t); try discriminate. reflexivity. Qed.

Lemma chain_peel seen cpt h id l seen' cpt' h' final :
  chain seen cpt h id l seen' cpt' h' final ->
  forall fuel, (List.length seen' <= List.length seen + fuel)%nat ->
  peel types fuel seen cpt id = Some (l, final).
Proof.
  assert (Hge : forall seen cpt h id l seen' cpt' h' final,
    chain seen cpt h id l seen' cpt' h' final -> (List.length seen < List.length seen')%nat).
  { induction 1; rewrite ?app_length in *; cbn in *; lia. }
  induction 1 as [seen cpt h id t Hf Hl Ht
                 |seen cpt h id t f l seen' cpt' h' final Hf Hl Ht Hd Hc IH
                 |seen h id t inner l seen' cpt' h' final Hf Hl Ht Hd Hc IH];
    intros fuel Hfuel; unfold fresh in Hf; apply negb_true_iff in Hf.
  - rewrite app_length in Hfuel. cbn in Hfuel. destruct fuel; [lia|].
    cbn [peel]. rewrite Hf, Hl, Ht. reflexivity.
  - pose proof (Hge _ _ _ _ _ _ _ _ _ Hc) as Hlen. rewrite app_length in Hlen. cbn in Hlen.
    destruct fuel; [lia|]. cbn [peel]. rewrite Hf, Hl, Ht, andb_false_r, orb_false_r.
    rewrite IH; [reflexivity|]. rewrite app_length. cbn. lia.
  - pose proof (Hge _ _ _ _ _ _ _ _ _ Hc) as Hlen. rewrite app_length in Hlen. cbn in Hlen.
    destruct fuel; [lia|]. cbn [peel]. rewrite Hf, Hl, Ht. cbn [andb orb].
    rewrite IH; [reflexivity|]. rewrite app_length. cbn. lia.
Qed.

Lemma lookup_lt id t : lookup types id = Some t -> (id < N.of_nat (List.length types))%N.
Proof. unfold lookup. destruct (N.ltb_spec id (N.of_nat (List.length types))); auto. discriminate. Qed.

Lemma ids_bound (l : list N) n : NoDup l -> Forall (fun i => i < N.of_nat n)%N l ->
  (List.length l <= n)%nat.
Proof.
  intros Hn Hf.
  assert (Hi : incl l (map N.of_nat (seq 0 n))).
  { intros x Hx. rewrite Forall_forall in Hf. specialize (Hf x Hx).
    apply in_map_iff. exists (N.to_nat x). split; [lia|]. apply in_seq. lia. }
  pose proof (NoDup_incl_length Hn Hi) as H. rewrite map_length, seq_length in H. exact H.
Qed.

Lemma fresh_spec cyc id : fresh cyc id = true <-> ~ In id cyc.
Proof.
  unfold fresh. rewrite negb_true_iff. split.
  - intros H Hin. assert (existsb (N.eqb id) cyc = true); [|congruence].
    apply existsb_exists. exists id. split; auto. apply N.eqb_refl.
  - intros H. destruct (existsb (N.eqb id) cyc) eqn:He; auto.
    apply existsb_exists in He. destruct He as (x & Hx & He). apply N.eqb_eq in He. subst. contradiction.
Qed.

Lemma chain_visited seen cpt h id l seen' cpt' h' final :
  chain seen cpt h id l seen' cpt' h' final ->
  exists vis, seen' = seen ++ id :: vis /\ NoDup (id :: vis) /\
    Forall (fun i => i < N.of_nat (List.length types))%N (id :: vis) /\
    (forall x, In x (id :: vis) -> ~ In x seen).
Proof.
  assert (Hcons : forall id (seen vis : list N), ~ In id seen ->
     (forall x, In x vis -> ~ In x (seen ++ [id])) -> NoDup vis ->
     NoDup (id :: vis) /\ (forall x, In x (id :: vis) -> ~ In x seen)).
  { intros i s vis Hs Hv Hn. split.
    - constructor; auto. intros Hin. apply (Hv _ Hin). apply in_or_app. right. left. auto.
    - intros x [->|Hx]; auto. intros Hin. apply (Hv _ Hx). apply in_or_app. auto. }
  induction 1 as [seen cpt h id t Hf Hl Ht
                 |seen cpt h id t f l seen' cpt' h' final Hf Hl Ht Hd Hc IH
                 |seen h id t inner l seen' cpt' h' final Hf Hl Ht Hd Hc IH];
    apply fresh_spec in Hf; apply lookup_lt in Hl.
  - exists []. split; auto. destruct (Hcons id seen [] Hf) as [H1 H2]; [intros ? []|constructor|].
    repeat split; auto.
  - destruct IH as (vis & -> & Hn & Hfa & Hd2). exists (f_ty f :: vis).
    rewrite <- app_assoc. destruct (Hcons id seen (f_ty f :: vis) Hf) as [H1 H2]; auto.
  - destruct IH as (vis & -> & Hn & Hfa & Hd2). exists (inner :: vis).
    rewrite <- app_assoc. destruct (Hcons id seen (inner :: vis) Hf) as [H1 H2]; auto.
Qed.

Lemma chain_peel_from seen h id l seen' cpt' h' final :
  chain seen false h id l seen' cpt' h' final -> peel_from types seen id = Some (l, final).
Proof.
  intros H. unfold peel_from. eapply chain_peel; [exact H|].
  destruct (chain_visited _ _ _ _ _ _ _ _ _ H) as (vis & -> & Hn & Hf & _).
  pose proof (ids_bound _ _ Hn Hf). rewrite app_length. cbn [List.length] in *. lia.
Qed.

Lemma peel_chain fuel : forall seen cpt h id l final,
  peel types fuel seen cpt id = Some (l, final) ->
  exists seen' cpt' h', chain seen cpt h id l seen' cpt' h' final.
Proof.
  induction fuel as [|fuel IH]; intros seen cpt h id l final; cbn [peel]; [discriminate|].
  destruct (existsb (N.eqb id) seen) eqn:He; [discriminate|].
  destruct (lookup types id) as [t|] eqn:Hl; [|discriminate].
  assert (Hf : fresh seen id = true) by (unfold fresh; rewrite He; reflexivity).
  destruct (transparent t) as [[inner [|]]|] eqn:Ht.
  - destruct cpt; cbn [andb orb]; [discriminate|].
    destruct (peel types fuel (seen ++ [id]) true inner) as [[l1 f1]|] eqn:Hp; [|discriminate].
    intros H; injection H as <- <-. destruct (IH _ _ h _ _ _ Hp) as (seen' & cpt' & h' & Hc).
    exists seen', cpt', h'. eapply chain_compact; eauto. apply transparent_true in Ht. tauto.
  - rewrite andb_false_r, orb_false_r.
    destruct (peel types fuel (seen ++ [id]) cpt inner) as [[l1 f1]|] eqn:Hp; [|discriminate].
    intros H; injection H as <- <-.
    destruct (transparent_false _ _ Ht) as (f & Hd & -> & _).
    destruct (IH _ _ (or_label h (field_label f)) _ _ _ Hp) as (seen' & cpt' & h' & Hc).
    exists seen', cpt', h'. eapply chain_field; eauto.
  - intros H; injection H as <- <-. exists (seen ++ [id]), cpt, h. apply chain_end; auto.
Qed.

(** Chains do not depend on the ids seen before, apart from repetitions. *)
Lemma chain_mono seen cpt h id l seen' cpt' h' final :
  chain seen cpt h id l seen' cpt' h' final ->
  forall seen0, (forall x, In x seen0 -> In x seen) ->
  exists seen0', chain seen0 cpt h id l seen0' cpt' h' final.
Proof.
  assert (Hm : forall id (seen seen0 : list N), (forall x, In x seen0 -> In x seen) ->
            (forall x, In x (seen0 ++ [id]) -> In x (seen ++ [id]))).
  { intros i s s0 H x. rewrite !in_app_iff. intros [Hx|Hx]; auto. }
  induction 1 as [seen cpt h id t Hf Hl Ht
                 |seen cpt h id t f l seen' cpt' h' final Hf Hl Ht Hd Hc IH
                 |seen h id t inner l seen' cpt' h' final Hf Hl Ht Hd Hc IH];
    intros seen0 Hs; assert (Hf0 : fresh seen0 id = true)
      by (apply fresh_spec; apply fresh_spec in Hf; auto).
  - eexists. apply chain_end; auto.
  - destruct (IH (seen0 ++ [id]) (Hm _ _ _ Hs)) as (s & Hs'). eexists. eapply chain_field; eauto.
  - destruct (IH (seen0 ++ [id]) (Hm _ _ _ Hs)) as (s & Hs'). eexists. eapply chain_compact; eauto.
Qed.

Lemma peel_from_mono seen id x : peel_from types seen id = Some x -> peel_from types [] id = Some x.
Proof.
  destruct x as [l final]. unfold peel_from at 1. intros H.
  destruct (peel_chain _ _ _ HNone _ _ _ H) as (s & c & h & Hc).
  destruct (chain_mono _ _ _ _ _ _ _ _ _ Hc []) as (s0 & Hc0); [intros ? []|].
  eapply chain_peel_from, Hc0.
Qed.

(** ** [husk_type] *)

Context {E : Type}.
Local Notation reg := (@portable E types).

Lemma resolve_portable_ok {X} (g : reg_err -> X) id p (e : E) t q e' :
  map_err g (resolve_ty reg id) p e = (Ok t, q, e') <->
  lookup types id = Some t /\ q = p /\ e' = e.
Proof.
  unfold map_err, resolve_ty. cbn [resolve portable]. unfold portable_resolve.
  destruct (lookup types id) as [t1|]; split.
  - intros H; inversion H; auto.
  - intros (H & -> & ->); inversion H; auto.
  - discriminate.
  - intros (H & _); discriminate.
Qed.

Lemma resolve_ok id p (e : E) t q e' :
  resolve_ty reg id p e = (Ok t, q, e') <-> lookup types id = Some t /\ q = p /\ e' = e.
Proof.
  unfold resolve_ty. cbn [resolve portable]. unfold portable_resolve.
  destruct (lookup types id) as [t1|]; split.
  - intros H; inversion H; auto.
  - intros (H & -> & ->); inversion H; auto.
  - discriminate.
  - intros (H & _); discriminate.
Qed.

Lemma resolve_total id p (e : E) :
  match lookup types id with
  | Some t => resolve_ty reg id p e = (Ok t, p, e)
  | None => resolve_ty reg id p e = (Err (RInternal (TypeNotResolved id)), p, e)
  end.
Proof.
  unfold resolve_ty. cbn [resolve portable]. unfold portable_resolve.
  destruct (lookup types id); reflexivity.
Qed.

(** How one step of the loop looks, in terms of [transparent]. *)
Lemma husk_loop_S fuel t id c acc p (e : E) :
  husk_loop reg (S fuel) t id c acc p e =
  match transparent t with
  | None => (Ok (Husked (acc ++ own_info t) c t id), p, e)
  | Some (inner, false) =>
      (do c1 <- lift_int (check_id c inner);
       do t1 <- resolve_ty reg inner;
       husk_loop reg fuel t1 inner
         (match t_def t with
          | TComposite [f] => with_hint c1 (or_label (c_hint c1) (field_label f))
          | _ => c1
          end) (acc ++ own_info t)) p e
  | Some (inner, true) =>
      (lift_int (reject_compact c) ;;
       do c2 <- lift_int (check_id (with_compact_at c id) inner);
       do t1 <- resolve_ty reg inner;
       husk_loop reg fuel t1 inner c2 (acc ++ own_info t)) p e
  end.
Proof.
  cbn [husk_loop].
  replace (if info_is_empty (info_from_ty t) then acc else acc ++ [info_from_ty t])
    with (acc ++ own_info t)
    by (rewrite own_info_spec; destruct (info_is_empty _); [apply app_nil_r|reflexivity]).
  rewrite hinted_classify. unfold hinted_of, transparent.
  destruct (classify t); try reflexivity.
  destruct (strs_eqb (t_path t) opaque_path); try reflexivity.
  destruct (t_def t) as [[|f [|]]| | | | | | |]; try reflexivity.
  unfold bind. destruct (lift_int _ p e) as [[[c1|x| |] p1] e1]; try reflexivity.
  destruct (resolve_ty reg (f_ty f) p1 e1) as [[[t1|x| |] p2] e2]; try reflexivity.
  rewrite hint_from_field_spec. f_equal.
  destruct c1 as [ca [] cy]; reflexivity.
Qed.

Lemma lift_int_ok {A} (x : A + int_err) p (e : E) a q e' :
  lift_int x p e = (Ok a, q, e') <-> x = inl a /\ q = p /\ e' = e.
Proof.
  unfold lift_int, map_err. destruct x; cbn; split.
  - intros H; inversion H; auto.
  - intros (H & -> & ->); inversion H; auto.
  - discriminate.
  - intros (H & _); discriminate.
Qed.

Lemma lift_p_ok {A} (x : A + int_err) p (e : E) a q e' :
  lift_p x p e = (Ok a, q, e') <-> x = inl a /\ q = p /\ e' = e.
Proof.
  unfold lift_p, map_err. destruct x; cbn; split.
  - intros H; inversion H; auto.
  - intros (H & -> & ->); inversion H; auto.
  - discriminate.
  - intros (H & _); discriminate.
Qed.

Lemma check_id_ok c id c1 : check_id c id = inl c1 <->
  fresh (cycle_check c) id = true /\ c1 = Checker (compact_at c) (c_hint c) (cycle_check c ++ [id]).
Proof.
  unfold check_id, fresh. destruct (existsb (N.eqb id) (cycle_check c)); cbn; split.
  - discriminate.
  - intros (H & _); discriminate.
  - intros H; injection H as <-; auto.
  - intros (_ & ->); auto.
Qed.

Lemma reject_compact_ok c u : reject_compact c = inl u <-> compact_at c = None.
Proof. unfold reject_compact. destruct (compact_at c), u; cbn; split; congruence. Qed.

Lemma reject_compact_m_ok c p (e : E) u q e' :
  reject_compact_m c p e = (Ok u, q, e') <-> compact_at c = None /\ q = p /\ e' = e.
Proof.
  unfold reject_compact_m, map_err, reject_compact. destruct (compact_at c), u; cbn; split.
  - discriminate.
  - intros (H & _); discriminate.
  - intros H; inversion H; auto.
  - intros (_ & -> & ->); auto.
Qed.

(** Soundness of the loop. *)
Lemma husk_loop_chain fuel : forall t id c acc p (e : E) hu q e' seen,
  husk_loop reg fuel t id c acc p e = (Ok hu, q, e') ->
  lookup types id = Some t -> cycle_check c = seen ++ [id] -> fresh seen id = true ->
  q = p /\ e' = e /\ lookup types (hu_id hu) = Some (hu_ty hu) /\
  exists l, hu_info hu = acc ++ l /\
    chain seen (is_some (compact_at c)) (c_hint c) id l
      (cycle_check (hu_checker hu)) (is_some (compact_at (hu_checker hu)))
      (c_hint (hu_checker hu)) (hu_id hu).
Proof.
  induction fuel as [|fuel IH]; intros t id c acc p e hu q e' seen H Hl Hc Hf; [discriminate|].
  rewrite husk_loop_S in H.
  destruct (transparent t) as [[inner [|]]|] eqn:Ht.
  - inv_bind H. apply lift_int_ok in H0. destruct H0 as (H0 & -> & ->). apply reject_compact_ok in H0.
    inv_bind H. apply lift_int_ok in H1. destruct H1 as (H1 & -> & ->).
    apply check_id_ok in H1. destruct H1 as (Hf1 & ->). cbn [with_compact_at compact_at c_hint cycle_check] in *.
    inv_bind H. apply resolve_ok in H1. destruct H1 as (Hl1 & -> & ->).
    eapply IH in H; [|exact Hl1|reflexivity|exact Hf1].
    destruct H as (-> & -> & Hr & l & Hi & Hch). repeat split; auto.
    cbn [with_compact_at compact_at c_hint cycle_check is_some] in Hch.
    exists (own_info t ++ l). split; [rewrite Hi, app_assoc; reflexivity|].
    rewrite H0. cbn [is_some]. rewrite Hc in Hch.
    eapply chain_compact; eauto. apply transparent_true in Ht. tauto.
  - destruct (transparent_false _ _ Ht) as (f & Hd & -> & _). rewrite Hd in H.
    inv_bind H. apply lift_int_ok in H0. destruct H0 as (H0 & -> & ->).
    apply check_id_ok in H0. destruct H0 as (Hf1 & ->). cbn [with_hint compact_at c_hint cycle_check] in *.
    inv_bind H. apply resolve_ok in H0. destruct H0 as (Hl1 & -> & ->).
    eapply IH in H; [|exact Hl1|reflexivity|exact Hf1].
    destruct H as (-> & -> & Hr & l & Hi & Hch). repeat split; auto.
    cbn [with_hint compact_at c_hint cycle_check is_some] in Hch.
    exists (own_info t ++ l). split; [rewrite Hi, app_assoc; reflexivity|].
    rewrite Hc in Hch. eapply chain_field; eauto.
  - inversion H; subst hu q e'. cbn [hu_id hu_ty hu_info hu_checker]. repeat split; auto.
    exists (own_info t). split; auto. rewrite Hc. apply chain_end; auto.
Qed.

Lemma husk_type_chain id c p (e : E) hu q e' :
  husk_type reg id c p e = (Ok hu, q, e') ->
  q = p /\ e' = e /\ lookup types (hu_id hu) = Some (hu_ty hu) /\
  chain (cycle_check c) false HNone id (hu_info hu)
      (cycle_check (hu_checker hu)) (is_some (compact_at (hu_checker hu)))
      (c_hint (hu_checker hu)) (hu_id hu).
Proof.
  unfold husk_type. intros H.
  inv_bind H. apply lift_int_ok in H0. destruct H0 as (H0 & -> & ->).
  apply check_id_ok in H0. destruct H0 as (Hf & ->). cbn [cycle_check] in H.
  inv_bind H. apply resolve_ok in H0. destruct H0 as (Hl & -> & ->).
  eapply husk_loop_chain in H; [|exact Hl|reflexivity|exact Hf].
  destruct H as (-> & -> & Hr & l & Hi & Hch). cbn [app] in Hi. subst l. repeat split; auto.
Qed.

(** Completeness of the loop. *)
Lemma chain_husk_loop seen cpt h id l seen' cpt' h' final :
  chain seen cpt h id l seen' cpt' h' final ->
  forall t cat, lookup types id = Some t -> is_some cat = cpt ->
  exists cat' tf, is_some cat' = cpt' /\ lookup types final = Some tf /\
  forall fuel acc p (e : E),
    okf (husk_loop reg fuel t id (Checker cat h (seen ++ [id])) acc) p e
        (Husked (acc ++ l) (Checker cat' h' seen') tf final) p.
Proof.
  induction 1 as [seen cpt h id t Hf Hl Ht
                 |seen cpt h id t f l seen' cpt' h' final Hf Hl Ht Hd Hc IH
                 |seen h id t inner l seen' cpt' h' final Hf Hl Ht Hd Hc IH];
    intros t0 cat Hl0 Hcat; rewrite Hl in Hl0; injection Hl0 as <-.
  - exists cat, t. repeat split; auto. intros [|fuel] acc p e; [right; exists p, e; reflexivity|].
    unfold okf. rewrite husk_loop_S, Ht. left. reflexivity.
  - assert (Hfin : fresh (seen ++ [id]) (f_ty f) = true /\ exists t1, lookup types (f_ty f) = Some t1).
    { inversion Hc; subst; eauto. }
    destruct Hfin as (Hf1 & t1 & Hl1).
    destruct (IH t1 cat Hl1 Hcat) as (cat' & tf & Hcat' & Hlf & Hok).
    exists cat', tf. repeat split; auto. intros [|fuel] acc p e; [right; exists p, e; reflexivity|].
    unfold okf. rewrite husk_loop_S, Ht, Hd.
    apply (okf_bind _ _ _ _ (Checker cat h ((seen ++ [id]) ++ [f_ty f])) p).
    { apply okf_ok, lift_int_ok. repeat split; auto. apply check_id_ok. auto. }
    apply (okf_bind _ _ _ _ t1 p). { apply okf_ok, resolve_ok. auto. }
    cbn [with_hint compact_at c_hint cycle_check]. rewrite app_assoc. apply Hok.
  - assert (Hfin : fresh (seen ++ [id]) inner = true /\ exists t1, lookup types inner = Some t1).
    { inversion Hc; subst; eauto. }
    destruct Hfin as (Hf1 & t1 & Hl1).
    destruct (IH t1 (Some id) Hl1 eq_refl) as (cat' & tf & Hcat' & Hlf & Hok).
    exists cat', tf. repeat split; auto. intros [|fuel] acc p e; [right; exists p, e; reflexivity|].
    unfold okf. rewrite husk_loop_S, Ht.
    assert (cat = None) by (destruct cat; [discriminate|auto]). subst cat.
    apply (okf_bind _ _ _ _ tt p). { left. reflexivity. }
    apply (okf_bind _ _ _ _ (Checker (Some id) h ((seen ++ [id]) ++ [inner])) p).
    { apply okf_ok, lift_int_ok. repeat split; auto. apply check_id_ok. auto. }
    apply (okf_bind _ _ _ _ t1 p). { apply okf_ok, resolve_ok. auto. }
    rewrite app_assoc. apply Hok.
Qed.

Lemma chain_husk_type c id l seen' cpt' h' final :
  chain (cycle_check c) false HNone id l seen' cpt' h' final ->
  exists cat' tf, is_some cat' = cpt' /\ lookup types final = Some tf /\
  forall p (e : E), okf (husk_type reg id c) p e (Husked l (Checker cat' h' seen') tf final) p.
Proof.
  intros Hc.
  assert (Hfin : fresh (cycle_check c) id = true /\ exists t1, lookup types id = Some t1).
  { inversion Hc; subst; eauto. }
  destruct Hfin as (Hf & t & Hl).
  destruct (chain_husk_loop _ _ _ _ _ _ _ _ _ Hc t None Hl eq_refl) as (cat' & tf & Hcat & Hlf & Hok).
  exists cat', tf. repeat split; auto. intros p e. unfold husk_type.
  apply (okf_bind _ _ _ _ (Checker (compact_at c) (c_hint c) (cycle_check c ++ [id])) p).
  { apply okf_ok, lift_int_ok. repeat split; auto. apply check_id_ok. auto. }
  apply (okf_bind _ _ _ _ t p). { apply okf_ok, resolve_ok. auto. }
  apply (Hok (husk_fuel reg) [] p e).
Qed.

(** Whatever happens, nothing else is touched and there is no panic. *)
Lemma lift_int_total {A} (x : A + int_err) p (e : E) :
  (exists a, x = inl a /\ lift_int x p e = (Ok a, p, e)) \/
  (exists y, x = inr y /\ lift_int x p e = (Err (RInternal y), p, e)).
Proof. destruct x; [left|right]; eauto. Qed.

Lemma husk_loop_total fuel : forall t id c acc p (e : E),
  (exists hu, husk_loop reg fuel t id c acc p e = (Ok hu, p, e)) \/
  errf (husk_loop reg fuel t id c acc) p e p.
Proof.
  assert (Herr : forall {A B} (x : A + int_err) (f : A -> M E reg_err B) p e,
            (forall a, x = inl a -> (exists b, f a p e = (Ok b, p, e)) \/ errf (f a) p e p) ->
            (exists b, bind (lift_int x) f p e = (Ok b, p, e)) \/ errf (bind (lift_int x) f) p e p).
  { intros A B x f p e H. unfold errf, bind.
    destruct (lift_int_total x p e) as [(a & Hx & ->)|(y & Hx & ->)]; [apply H, Hx|].
    right. left. eauto. }
  assert (Hres : forall {B} id (f : ty -> M E reg_err B) p e,
            (forall a, (exists b, f a p e = (Ok b, p, e)) \/ errf (f a) p e p) ->
            (exists b, bind (resolve_ty reg id) f p e = (Ok b, p, e)) \/ errf (bind (resolve_ty reg id) f) p e p).
  { intros B id f p e H. unfold errf, bind. pose proof (resolve_total id p e) as Hr.
    destruct (lookup types id); rewrite Hr; [apply H|]. right. left. eauto. }
  induction fuel as [|fuel IH]; intros t id c acc p e; [right; right; exists p, e; reflexivity|].
  unfold errf. rewrite husk_loop_S.
  destruct (transparent t) as [[inner [|]]|]; [| |left; eauto].
  - apply Herr. intros _ _. apply Herr. intros c2 _. apply Hres. intros t1. apply IH.
  - apply Herr. intros c1 _. apply Hres. intros t1. apply IH.
Qed.

Lemma husk_type_total id c p (e : E) :
  (exists hu, husk_type reg id c p e = (Ok hu, p, e)) \/ errf (husk_type reg id c) p e p.
Proof.
  unfold errf, husk_type, bind.
  destruct (lift_int_total (check_id c id) p e) as [(a & Hx & ->)|(y & Hx & ->)]; [|right; left; eauto].
  pose proof (resolve_total id p e) as Hr.
  destruct (lookup types id); rewrite Hr; [|right; left; eauto].
  apply husk_loop_total.
Qed.

Lemma husk_type_no_chain id c p (e : E) :
  peel_from types (cycle_check c) id = None -> errf (husk_type reg id c) p e p.
Proof.
  intros H. destruct (husk_type_total id c p e) as [(hu & Hh)|Hh]; auto. exfalso.
  apply husk_type_chain in Hh. destruct Hh as (_ & _ & _ & Hc).
  apply chain_peel_from in Hc. congruence.
Qed.

End Peel.
