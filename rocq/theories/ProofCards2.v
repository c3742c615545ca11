(** C40: decoded data carries only non-empty type information. *)
From Coq Require Import Lia QArith Qpower.
From Verif Require Import Base Compact Types Indicators Decode Sign Balance Cards Spec SpecCards ProofBase
  ProofPeel ProofSpec ProofBalance SpecBalance ProofCards Api ProofCor ApiSign SpecSign ProofSign ProofSign2.
Local Open Scope list_scope.

Lemma own_info_ok t : infos_ok (own_info t).
Proof.
  assert (G : forall i, info_is_empty i = false -> infos_ok [i]) by (intros; repeat constructor; assumption).
  unfold own_info. destruct (t_docs t) as [|a [|b r]], (t_path t) as [|p q];
    try (destruct a as [|c a]); try (apply G; unfold info_is_empty; cbn; rewrite ?andb_false_r; reflexivity).
  all: constructor.
Qed.

Lemma peel_ok types fuel : forall seen cpt id l final, peel types fuel seen cpt id = Some (l, final) -> infos_ok l.
Proof.
  induction fuel as [|n IH]; intros seen cpt id l final H; [discriminate H|]. cbn [peel] in H.
  destruct (existsb (N.eqb id) seen); [discriminate H|].
  destruct (lookup types id) as [t|]; [|discriminate H].
  destruct (transparent t) as [[inner c]|].
  - destruct (cpt && c); [discriminate H|].
    destruct (peel types n (seen ++ [id]) (cpt || c) inner) as [[l' f']|] eqn:E; [|discriminate H].
    injection H as <- <-. apply Forall_app. split; [apply own_info_ok|eapply IH; exact E].
  - injection H as <- <-. apply own_info_ok.
Qed.

Lemma classify_path t i : classify t = SpItem i -> t_path t <> [].
Proof. intros H E. unfold classify in H. rewrite E in H. vm_compute in H. discriminate H. Qed.

Section View.
Variable types : list ty.
Notation view := (view types).

Definition good (d : pdata) : Prop := everywhere info_here d.
Definition view_ok (v : value) : Prop := forall elem h id d l, view elem h id v = Some (d, l) -> good d /\ infos_ok l.

Lemma fields_ok h fs : forall vs l, Forall view_ok vs ->
  fields_view types h fs vs = Some l ->
  Forall (fun f => infos_ok (x_info (fd_data f))) l /\ Forall (fun f => good (x_data (fd_data f))) l.
Proof.
  unfold fields_view. generalize (List.length fs) as k. intros k.
  induction fs as [|f r IH]; intros vs l H E.
  - destruct vs; [|discriminate E]. injection E as <-. split; constructor.
  - destruct vs as [|v vs]; [discriminate E|]. cbn [view_list] in E.
    inversion H as [|? ? Hv Hvs]; subst.
    destruct (view false (or_label (pass_label h k) (field_label f)) (f_ty f) v) as [[d i]|] eqn:Ev;
      [|discriminate E]. cbn [option_map] in E.
    match type of E with (match ?x with _ => _ end = _) => destruct x as [l'|] eqn:El; [|discriminate E] end.
    injection E as <-. destruct (IH vs l' Hvs El) as [A B]. destruct (Hv _ _ _ _ _ Ev) as [G I].
    split; constructor; auto.
Qed.

Lemma tuple_ok h ids : forall vs l, Forall view_ok vs ->
  tuple_view types h ids vs = Some l ->
  Forall (fun x => infos_ok (x_info x)) l /\ Forall (fun x => good (x_data x)) l.
Proof.
  unfold tuple_view. generalize (List.length ids) as k. intros k.
  induction ids as [|f r IH]; intros vs l H E.
  - destruct vs; [|discriminate E]. injection E as <-. split; constructor.
  - destruct vs as [|v vs]; [discriminate E|]. cbn [view_list] in E.
    inversion H as [|? ? Hv Hvs]; subst. destruct (lookup types f) as [t|]; [|discriminate E].
    destruct (view false (or_label (pass_label h k) (path_label t)) f v) as [[d i]|] eqn:Ev;
      [|discriminate E]. cbn [option_map] in E.
    match type of E with (match ?x with _ => _ end = _) => destruct x as [l'|] eqn:El; [|discriminate E] end.
    injection E as <-. destruct (IH vs l' Hvs El) as [A B]. destruct (Hv _ _ _ _ _ Ev) as [G I].
    split; constructor; auto.
Qed.

Lemma elems_ok el : forall vs l, Forall view_ok vs -> elems_view types el vs = Some l -> Forall good l.
Proof.
  induction vs as [|v vs IH]; intros l H E; [injection E as <-; constructor|]. cbn [elems_view] in E.
  inversion H as [|? ? Hv Hvs]; subst. destruct (view true HNone el v) as [[d i]|] eqn:Ev; [|discriminate E].
  match type of E with (match ?x with _ => _ end = _) => destruct x as [l'|] eqn:El; [|discriminate E] end.
  injection E as <-. constructor; [eapply Hv; exact Ev|auto].
Qed.

Lemma sequence_ok inf l : infos_ok inf -> Forall good l -> good (sequence_of inf l).
Proof.
  intros I H. unfold sequence_of, good. destruct (collect l) as [s|] eqn:E.
  - split; [|exact Logic.I]. cbn [info_here]. split; [exact I|]. destruct s as [|x inner]; [exact Logic.I|].
    destruct l as [|d r]; [discriminate E|]. unfold collect in E.
    destruct d; try discriminate E; [destruct (map_opt _ _) in E; discriminate E|].
    destruct s as [[] ?|]; try discriminate E.
    destruct (map_opt _ _) in E; [|discriminate E]. cbn in E. injection E as _ <-.
    inversion H as [|? ? Hd _]; subst. apply Hd.
  - apply everywhere_raw. split; [exact I|exact H].
Qed.

Lemma seq_ok t el vs d l : Forall view_ok vs -> seq_view types t el vs = Some (d, l) -> good d /\ infos_ok l.
Proof.
  intros H E. unfold seq_view in E. destruct (peel_from types [] el) as [[inf fin]|] eqn:Ep; [|discriminate E].
  destruct (elems_view types el vs) as [ds|] eqn:Ee; [|discriminate E]. injection E as <- <-. split; [|apply own_info_ok].
  apply sequence_ok; [eapply peel_ok; exact Ep|eapply elems_ok; eassumption].
Qed.

Lemma view_all v : view_ok v.
Proof.
  assert (leafy : forall d, leaf d -> good d). { intros d; destruct d; cbn; tauto. }
  induction v as [n|z|b|cs|vs IH|vs IH|i vs IH| |vs IH|vs IH|v IH|n elems|bs'|er|i bs'|i j vs IH] using value_ind';
    intros elem h id d l E.
  all: destruct (lookup types id) as [t|] eqn:El; [|cbn [Spec.view] in E; rewrite El in E; discriminate E].
  all: lazymatch type of E with
    | Spec.view _ _ _ _ (VStruct _) = _ => idtac | Spec.view _ _ _ _ (VTuple _) = _ => idtac
    | Spec.view _ _ _ _ (VEnum _ _) = _ => idtac | Spec.view _ _ _ _ (VSeq _) = _ => idtac
    | Spec.view _ _ _ _ (VArr _) = _ => idtac | Spec.view _ _ _ _ (VCompact _) = _ => idtac
    | Spec.view _ _ _ _ (VItem _ _ _) = _ => idtac
    | _ => cbn [Spec.view] in E; rewrite El in E;
        repeat match type of E with (match ?x with _ => _ end = _) => destruct x eqn:?; try discriminate E end
    end.
  all: try (injection E as <- <-; split; [apply leafy; exact Logic.I|apply own_info_ok]).
  - destruct (def_of t) as [td|] eqn:Ed; [|cbn [Spec.view] in E; rewrite El, Ed in E; discriminate E].
    destruct td; try (cbn [Spec.view] in E; rewrite El, Ed in E; discriminate E).
    rewrite (view_struct types _ _ _ _ _ _ El Ed) in E.
    assert (G : match fields_view types h fields vs with Some l => Some (DComposite l, own_info t) | None => None end
                = Some (d, l) -> good d /\ infos_ok l).
    { destruct (fields_view types h fields vs) as [fl|] eqn:Ef; [|discriminate].
      intros E'. injection E' as <- <-. split; [|apply own_info_ok]. apply everywhere_composite.
      exact (fields_ok _ _ _ _ IH Ef). }
    destruct elem; [|exact (G E)]. destruct (transparent t); [|exact (G E)].
    destruct fields as [|f [|g r]]; try exact (G E). destruct vs as [|v [|v' r']]; try exact (G E).
    inversion IH as [|? ? Hv _]; subst. eapply Hv. exact E.
  - destruct (def_of t) as [td|] eqn:Ed; [|cbn [Spec.view] in E; rewrite El, Ed in E; discriminate E].
    destruct td; try (cbn [Spec.view] in E; rewrite El, Ed in E; discriminate E).
    rewrite (view_tuple types _ _ _ _ _ _ El Ed) in E.
    destruct (tuple_view types h elems vs) as [fl|] eqn:Ef; [|discriminate]. injection E as <- <-.
    split; [|apply own_info_ok]. apply everywhere_tuple. exact (tuple_ok _ _ _ _ IH Ef).
  - destruct (def_of t) as [td|] eqn:Ed; [|cbn [Spec.view] in E; rewrite El, Ed in E; discriminate E].
    destruct td; try (cbn [Spec.view] in E; rewrite El, Ed in E; discriminate E).
    destruct (by_index variants i) as [var|] eqn:Ei; [|cbn [Spec.view] in E; rewrite El, Ed, Ei in E; discriminate E].
    rewrite (view_enum types _ _ _ _ _ _ _ _ El Ed Ei) in E.
    destruct (fields_view types HNone (v_fields var) vs) as [fl|] eqn:Ef; [|discriminate]. injection E as <- <-.
    split; [|apply own_info_ok]. apply everywhere_variant. exact (fields_ok _ _ _ _ IH Ef).
  - destruct (def_of t) as [td|] eqn:Ed; [|cbn [Spec.view] in E; rewrite El, Ed in E; discriminate E].
    destruct td; try (cbn [Spec.view] in E; rewrite El, Ed in E; discriminate E).
    rewrite (view_seq types _ _ _ _ _ _ El Ed) in E. exact (seq_ok _ _ _ _ _ IH E).
  - destruct (def_of t) as [td|] eqn:Ed; [|cbn [Spec.view] in E; rewrite El, Ed in E; discriminate E].
    destruct td; try (cbn [Spec.view] in E; rewrite El, Ed in E; discriminate E).
    rewrite (view_arr types _ _ _ _ _ _ _ El Ed) in E. exact (seq_ok _ _ _ _ _ IH E).
  - destruct (def_of t) as [td|] eqn:Ed; [|cbn [Spec.view] in E; rewrite El, Ed in E; discriminate E].
    destruct td; try (cbn [Spec.view] in E; rewrite El, Ed in E; discriminate E).
    rewrite (view_compact types _ _ _ _ _ _ El Ed) in E.
    destruct (view (elem && is_some (transparent t)) h inner v) as [[d' l']|] eqn:Ev; [|discriminate E].
    injection E as <- <-. destruct (IH _ _ _ _ _ Ev) as [G I]. split; [exact G|].
    apply Forall_app. split; [apply own_info_ok|exact I].
  - destruct (def_of t) as [td|] eqn:Ed; [|cbn [Spec.view] in E; rewrite El, Ed in E; discriminate E].
    destruct td; try (cbn [Spec.view] in E; rewrite El, Ed in E; discriminate E).
    destruct (by_index variants i) as [var|] eqn:Ei; [|cbn [Spec.view] in E; rewrite El, Ed, Ei in E; discriminate E].
    destruct (pallet_items types t var) as [[inner items]|] eqn:Ep;
      [|cbn [Spec.view] in E; rewrite El, Ed, Ei, Ep in E; discriminate E].
    destruct (by_index items j) as [it|] eqn:Ej; [|cbn [Spec.view] in E; rewrite El, Ed, Ei, Ep, Ej in E; discriminate E].
    rewrite (view_item types _ _ _ _ _ _ _ _ _ _ _ _ El Ed Ei Ep Ej) in E.
    destruct (fields_view types HNone (v_fields it) vs) as [fl|] eqn:Ef; [|discriminate]. injection E as <- <-.
    split; [|apply own_info_ok].
    assert (N : info_is_empty (Info (docs_text (t_docs inner)) (t_path inner)) = false).
    { unfold pallet_items in Ep. destruct (v_fields var) as [|f [|? ?]]; try discriminate Ep.
      destruct (lookup types (f_ty f)) as [inner'|]; [|discriminate Ep].
      destruct (t_def inner') eqn:Et; try discriminate Ep.
      destruct (item_eqb (classify t) (classify inner')) eqn:Eb; [|discriminate Ep]. injection Ep as -> ->.
      unfold info_is_empty. cbn [i_docs i_path].
      assert (t_path inner <> []).
      { unfold item_eqb in Eb. destruct (classify t) as [ |k| | |k| |[] ]; try discriminate Eb.
        all: destruct (classify inner) eqn:Ec; try discriminate Eb; eapply classify_path; exact Ec. }
      destruct (t_path inner); [contradiction|apply andb_false_r]. }
    assert (F := fields_ok _ _ _ _ IH Ef). destruct F as [F1 F2].
    destruct (classify t) as [ |k| | |k| |[] ]; first [apply everywhere_event|apply everywhere_call]; split; cbn; auto.
Qed.
End View.

(** ** Cards of decoded data *)

Section Decoded.
Variable base58 : fixed_kind -> bytes -> N -> string.
Variable identicon : bytes -> bytes.
Variable specs : short_specs.
Variable chain_name : string.
Notation card_ext := (card_ext base58 identicon specs chain_name).
Notation card_call := (card_call base58 identicon specs chain_name).
Notation card_extensions := (card_extensions base58 identicon specs chain_name).

Lemma hinted_good h types data id pos x q : is_bytes data -> decode_hinted h types data id pos = (Ok x, q) ->
  good (x_data x) /\ infos_ok (x_info x).
Proof.
  intros Hb H. apply (hinted_sound types h data id pos x q Hb) in H. destruct H as (v & bs & _ & H & _).
  exact (view_all types v false h id _ _ H).
Qed.

Lemma ext_informative x n db : good (x_data x) -> infos_ok (x_info x) -> Forall informative (card_ext x n db).
Proof. intros G I. apply cards_informative; [exact G|apply flattens_say; exact I]. Qed.

Lemma hinted_informative h types data id pos x q n db : is_bytes data ->
  decode_hinted h types data id pos = (Ok x, q) -> Forall informative (card_ext x n db).
Proof. intros Hb H. destruct (hinted_good h types data id pos x q Hb H). apply ext_informative; assumption. Qed.

Lemma extensions_concat l : card_extensions l = flat_map (fun x => card_ext x 0 true) l.
Proof.
  unfold Cards.card_extensions.
  assert (G : forall acc, fold_left (fun acc x => match card_ext x 0 true with [] => acc | _ :: _ => acc ++ card_ext x 0 true end) l acc
                          = acc ++ flat_map (fun x => card_ext x 0 true) l).
  { induction l as [|x l IH]; intros acc; cbn [fold_left flat_map]; [symmetry; apply app_nil_r|]. rewrite IH.
    destruct (card_ext x 0 true); [reflexivity|]. rewrite app_assoc. reflexivity. }
  apply (G []).
Qed.

Lemma turn_informative types data l : is_bytes data -> forall p xs q, read_in_turn types data l p xs q ->
  Forall informative (card_extensions xs).
Proof.
  intros Hb p xs q H. rewrite extensions_concat. induction H as [|i id l p x p' xs q H T IH]; [constructor|].
  cbn [flat_map]. apply Forall_app. split; [|exact IH]. eapply hinted_informative; eassumption.
Qed.

Lemma call_informative types data id pos x q d n : is_bytes data ->
  decode_at types data id pos = (Ok x, q) -> x_data x = DCall d -> Forall informative (card_call d n).
Proof.
  intros Hb H E. destruct (hinted_good HNone types data id pos x q Hb H) as [G _]. rewrite E in G.
  change (card_call d n) with (card base58 identicon specs chain_name (DCall d) [] n true).
  apply cards_informative; [exact G|constructor].
Qed.

Context {ME : Type}.
Variable c : chain ME.

Lemma transaction_informative g data t : is_bytes data -> transaction c g data = Ok t ->
  Forall informative (card_extensions (tp_extensions t)) /\
  forall call, tp_call t = inl call -> Forall informative (card_call call 0).
Proof.
  intros Hb H. split.
  - destruct (transaction_matches c g data t Hb H) as (mk & _ & l & nv & v & gh & _ & _ & T & _).
    eapply turn_informative; [exact Hb|exact T].
  - intros call Ec. rewrite transaction_eq in H.
    destruct (mark_data data) as [mk|x| |] eqn:Em; try discriminate H.
    assert (Hc : call_of c data mk = Ok call).
    { destruct (extensions_of c g data mk); try discriminate H.
      destruct (call_of c data mk) eqn:E; try discriminate H; injection H as <-; cbn in Ec; congruence. }
    destruct (mark_inside data mk Hb Em) as [_ Hn].
    pose proof (call_answer c data mk Hn) as A. rewrite Hc in A.
    inversion A as [| | | |id' x d Hi' Hd Hx]; subst. eapply call_informative; [|exact Hd|exact Hx].
    apply Forall_firstn, Hb.
Qed.

Lemma unmarked_informative g data call xs : is_bytes data -> transaction_unmarked c g data = Ok (call, xs) ->
  Forall informative (card_call call 0) /\ Forall informative (card_extensions xs).
Proof.
  intros Hb H. destruct (unmarked_matches c g data call xs H) as (id & x & q & _ & Hd & Hx & l & nv & v & gh & _ & _ & T & _).
  split; [eapply call_informative; eassumption|eapply turn_informative; eassumption].
Qed.
End Decoded.

(** ** Cards tell values apart *)

Lemma string_of_bytes_inj a : forall b, is_bytes a -> is_bytes b -> string_of_bytes a = string_of_bytes b -> a = b.
Proof.
  induction a as [|x a IH]; intros [|y b] Ha Hb E; try discriminate E; [reflexivity|].
  cbn [string_of_bytes] in E. injection E as E1 E2. inversion Ha; inversion Hb; subst. f_equal; [|auto].
  apply (f_equal N_of_ascii) in E1. rewrite !N_ascii_embedding in E1 by assumption. exact E1.
Qed.

Section Faithful.
Variable base58 : fixed_kind -> bytes -> N -> string.
Variable identicon : bytes -> bytes.
Variable specs : short_specs.
Variable chain_name : string.
Hypothesis base58_inj : base58_faithful base58.
Hypothesis decimals_u8 : (decimals specs < 256)%N.
Notation shows := (shows base58 identicon specs chain_name).

Lemma units_inj v v' c : (v < 2 ^ 128)%N -> (v' < 2 ^ 128)%N -> in_units specs v c -> in_units specs v' c -> v = v'.
Proof.
  intros Hv Hv' H H'. destruct (H Hv decimals_u8) as (n & p & i & f & e & -> & D & I & A).
  destruct (H' Hv' decimals_u8) as (n' & p' & i' & f' & e' & E & D' & I' & A').
  injection E as <- Ep. apply str_cancel_right in Ep. subst p'.
  destruct (displays_unique _ _ _ _ _ D D') as [<- <-]. rewrite (prefix_unique _ _ _ I I') in A. rewrite A in A'.
  apply Qmult_inj_r in A'; [|apply Qpower_not_0; intros E0; discriminate E0].
  apply (proj1 (inject_Z_injective _ _)) in A'. apply N2Z.inj. congruence.
Qed.

Lemma decimal_inj s n n' : decimal s n -> decimal s n' -> n = n'.
Proof. intros (_ & _ & <- & _) (_ & _ & <- & _). reflexivity. Qed.

Lemma shows_alike u u' i j c : shows u i c -> shows u' j c -> in_range i -> in_range j -> alike i j.
Proof.
  intros H H' R R'. destruct H; inversion H'; subst; cbn in R, R'; cbn [alike]; try (split; [|auto]); auto;
    try (eapply units_inj; eassumption); try (eapply decimal_inj; eassumption).
  all: try (f_equal; f_equal; eapply base58_inj; first [eassumption|symmetry; eassumption|apply R|apply R']).
  all: try (split; [reflexivity|discriminate]).
  all: try (f_equal; f_equal; apply string_of_bytes_inj; first [assumption|symmetry; assumption]).
  all: try match goal with A : is_bytes ?l -> unhex ?s = Some ?l, B : is_bytes ?m -> unhex ?s = Some ?m |- _ =>
         pose proof (A R) as A'; rewrite (B R') in A'; injection A' as <-; reflexivity end.
Qed.
End Faithful.
