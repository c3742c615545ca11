(** The public building blocks of the decoder (C59). *)
From Coq Require Import Lia ZifyBool ZifyNat ZifyN FinFun.
From Verif Require Import Base Compact Types Indicators Decode Spec SpecHusk ProofBase ProofTables ProofPeel ProofRead ProofSpec.
Local Open Scope string_scope.
Local Open Scope list_scope.

Section Husk.
Variable types : list ty.
Context {E : Type}.
Local Notation reg := (@portable E types).
Local Notation R := (List.length types).
Local Notation reaches := (reaches types).

Lemma reaches_det seen cpt h id r1 : reaches seen cpt h id r1 -> forall r2, reaches seen cpt h id r2 -> r1 = r2.
Proof.
  induction 1; intros r2 Hr2; inversion Hr2; subst; try contradiction; try congruence;
    try (repeat match goal with A : lookup _ _ = Some ?x, B : lookup _ _ = Some ?y |- _ =>
      match x with y => fail 1 | _ => assert (x = y) by congruence; subst y end end; try congruence).
  - match goal with A : t_def _ = TComposite [?x], B : t_def _ = TComposite [?y] |- _ => assert (x = y) by congruence; subst y end.
    f_equal. auto.
  - match goal with A : transparent _ = Some (?x, true), B : transparent _ = Some (?y, true) |- _ => assert (x = y) by congruence; subst y end.
    f_equal. auto.
Qed.

Lemma reached_inside seen cpt h id r : reaches seen cpt h id r ->
  match r with inl x => lookup types (hu_id x) = Some (hu_ty x) /\ transparent (hu_ty x) = None | inr _ => True end.
Proof.
  induction 1; try exact I.
  - cbn [hu_id hu_ty]. auto.
  - unfold outside. destruct r; assumption.
  - unfold outside. destruct r; assumption.
Qed.

Lemma transparent_struct t i : transparent t = Some (i, false) -> exists f, t_def t = TComposite [f] /\ i = f_ty f.
Proof.
  unfold transparent. destruct (classify t); try discriminate. destruct (strs_eqb _ _); try discriminate.
  destruct (t_def t) as [[|f [|]]| | | | | | |]; try discriminate. intros H. injection H as <-. eauto.
Qed.

Definition answer (acc : list info) (r : husked + reg_err) : outcome reg_err husked :=
  match outside acc r with inl x => Ok x | inr x => Err x end.

Lemma answer_outside acc l r : answer acc (outside l r) = answer (acc ++ l) r.
Proof. unfold answer, outside. destruct r; cbn [hu_info hu_checker hu_ty hu_id]; rewrite ?app_assoc; reflexivity. Qed.

Lemma not_seen id l : existsb (N.eqb id) l = false <-> ~ In id l.
Proof.
  rewrite <- Bool.not_true_iff_false, existsb_exists. split; intros H Hx; apply H.
  - exists id. split; [exact Hx|apply N.eqb_refl].
  - destruct Hx as (x & Hx & He). apply N.eqb_eq in He. subst. exact Hx.
Qed.

Lemma enough new : NoDup new -> (forall i, In i new -> exists t, lookup types i = Some t) -> (List.length new <= R)%nat.
Proof.
  intros Hn Hl. rewrite <- (map_length N.to_nat new), <- (seq_length R 0). apply NoDup_incl_length.
  - apply FinFun.Injective_map_NoDup; [intros a b; lia|exact Hn].
  - intros x Hx. apply in_map_iff in Hx. destruct Hx as (i & <- & Hi). destruct (Hl i Hi) as [t Ht]. apply lookup_lt in Ht. apply in_seq. lia.
Qed.

Lemma husk_loop_exact fuel : forall t id cpt h seen new acc p (e : E),
  lookup types id = Some t -> ~ In id seen -> NoDup new -> incl new seen ->
  (forall i, In i new -> exists t, lookup types i = Some t) ->
  (R + 1 <= fuel + List.length new)%nat ->
  exists r, reaches seen cpt h id r /\
    husk_loop reg fuel t id (Checker cpt h (seen ++ [id])) acc p e = (answer acc r, p, e).
Proof.
  induction fuel as [|fuel IH]; intros t id cpt h seen new acc p e Hl Hns Hnd Hin Hall Hf.
  - pose proof (enough new Hnd Hall). lia.
  - rewrite husk_loop_S.
    assert (Hnew : NoDup (id :: new)) by (constructor; auto).
    assert (Hin2 : incl (id :: new) (seen ++ [id])).
    { intros x [<-|Hx]; apply in_or_app; [right; left; reflexivity|left; auto]. }
    assert (Hall2 : forall i, In i (id :: new) -> exists t, lookup types i = Some t) by (intros i [<-|Hi]; eauto).
    assert (Hgo : forall inner cpt2 h2 , exists r, reaches (seen ++ [id]) cpt2 h2 inner r /\ forall h0 c0 (g : checker -> checker),
       (forall x, g (Checker c0 h0 x) = Checker cpt2 h2 x) ->
       (do c1 <- lift_int (check_id (Checker c0 h0 (seen ++ [id])) inner); do t1 <- resolve_ty reg inner;
        husk_loop reg fuel t1 inner (g c1) (acc ++ own_info t)) p e = (answer (acc ++ own_info t) r, p, e)).
    { intros inner cpt2 h2. destruct (existsb (N.eqb inner) (seen ++ [id])) eqn:Hx.
      - exists (inr (RInternal (CyclicMetadata inner))). split.
        + apply R_repeated. apply existsb_exists in Hx. destruct Hx as (x & Hx & He). apply N.eqb_eq in He. subst. exact Hx.
        + intros h0 c0 g Hg. unfold bind, check_id. cbn [cycle_check]. rewrite Hx. reflexivity.
      - pose proof (proj1 (not_seen _ _) Hx) as Hn. pose proof (resolve_total types inner p e) as Hr.
        destruct (lookup types inner) as [t1|] eqn:Ht1.
        + destruct (IH t1 inner cpt2 h2 (seen ++ [id]) (id :: new) (acc ++ own_info t) p e Ht1 Hn Hnew Hin2 Hall2) as (r & Hre & Heq);
            [cbn [List.length]; lia|]. exists r. split; [exact Hre|]. intros h0 c0 g Hg. unfold bind, check_id. cbn [cycle_check]. rewrite Hx.
          unfold lift_int, map_err, lift. cbn [ret]. rewrite Hr. cbn [compact_at c_hint]. rewrite Hg. exact Heq.
        + eexists. split; [apply R_unknown; auto|]. intros h0 c0 g Hg. unfold bind, check_id. cbn [cycle_check]. rewrite Hx.
          unfold lift_int, map_err, lift. cbn [ret]. rewrite Hr. reflexivity. }
    destruct (transparent t) as [[inner [|]]|] eqn:Ht.
    + unfold bind at 1. unfold reject_compact. cbn [compact_at]. destruct cpt as [c|].
      * exists (inr (RInternal (UnexpectedCompactInsides c))). split; [eapply R_nested; eauto|]. reflexivity.
      * destruct (Hgo inner (Some id) h) as (r & Hr & Heq). exists (outside (own_info t) r).
        split; [eapply R_compact; eauto|]. rewrite answer_outside. exact (Heq h (Some id) (fun x => x) (fun x => eq_refl)).
    + destruct (transparent_struct _ _ Ht) as (f & Hd & ->). destruct (Hgo (f_ty f) cpt (or_label h (field_label f))) as (r & Hr & Heq).
      exists (outside (own_info t) r). split; [eapply R_struct; eauto|]. rewrite answer_outside, Hd.
      apply (Heq h cpt (fun c1 => with_hint c1 (or_label (c_hint c1) (field_label f)))). reflexivity.
    + exists (inl (Husked (own_info t) (Checker cpt h (seen ++ [id])) t id)). split; [apply R_here; auto|]. reflexivity.
Qed.

Theorem husk_exact id c p (e : E) : exists r, reaches (cycle_check c) None HNone id r /\
  husk_type reg id c p e = (match r with inl x => Ok x | inr x => Err x end, p, e).
Proof.
  unfold husk_type. unfold bind at 1. unfold check_id. destruct (existsb (N.eqb id) (cycle_check c)) eqn:Hx.
  - exists (inr (RInternal (CyclicMetadata id))). split; [|reflexivity].
    apply R_repeated. apply existsb_exists in Hx. destruct Hx as (x & Hx & He). apply N.eqb_eq in He. subst. exact Hx.
  - pose proof (proj1 (not_seen _ _) Hx) as Hn. pose proof (resolve_total types id p e) as Hr.
    unfold lift_int, map_err, lift. cbn [ret cycle_check]. cbv zeta. unfold bind. destruct (lookup types id) as [t|] eqn:Ht; rewrite Hr.
    + destruct (husk_loop_exact (husk_fuel reg) t id None HNone (cycle_check c) [] [] p e Ht Hn) as (r & H1 & H2); [constructor|intros ? []|intros ? []| |].
      * unfold husk_fuel. cbn [reg_bound portable List.length]. lia.
      * exists r. split; [exact H1|]. rewrite H2. f_equal. f_equal. unfold answer, outside. destruct r as [[] |]; reflexivity.
    + eexists. split; [apply R_unknown; auto|reflexivity].
Qed.

(** *** Signatures *)
Local Notation signs := (signs types).

Lemma signs_det f k1 k2 : signs f k1 -> signs f k2 -> k1 = k2.
Proof.
  intros [n1 x1 l1 e1 t1 Hn1 Hi1 _ _ _ _ _] [n2 x2 l2 e2 t2 Hn2 Hi2 _ _ _ _ _].
  assert (n1 = n2) by congruence. subst n2. unfold sig_names in *.
  repeat match goal with H : In _ (_ :: _) |- _ => destruct H as [H|H] | H : In _ [] |- _ => destruct H end; congruence.
Qed.

Theorem signature_exact f p (e : E) : exists o,
  signature_from_field reg f p e = (Ok (indicator o), p, e) /\
  match o with Some k => signs f k | None => forall k, ~ signs f k end.
Proof.
  unfold signature_from_field. destruct (husk_exact (f_ty f) checker_new p e) as (r & Hr & Hh). cbn [cycle_check checker_new] in Hr.
  unfold bind at 1. unfold catch. rewrite Hh. destruct r as [x|x].
  2: { exists None. split; [reflexivity|]. intros k [n y len elem te _ _ Hy _ _ _ _]. pose proof (reaches_det _ _ _ _ _ Hr _ Hy). discriminate. }
  assert (Hno : (forall len elem te, t_def (hu_ty x) = TArray len elem -> lookup types elem = Some te ->
      t_def te = TPrimitive (PrU U8) -> forall n k, f_type_name f = Some n -> In (n, k) sig_names -> len = N.of_nat (raw_len k) -> False) -> forall k, ~ signs f k).
  { intros H k [n y len elem te Hn Hi Hy Ha Hl Hp Hlen]. pose proof (reaches_det _ _ _ _ _ Hr _ Hy) as Hxy. injection Hxy as <-.
    eapply H; eauto. }
  assert (Hnone : forall (m : M E parser_err sig_indicator), m p e = (Ok SigNone, p, e) ->
     (forall len elem te, t_def (hu_ty x) = TArray len elem -> lookup types elem = Some te ->
      t_def te = TPrimitive (PrU U8) -> forall n k, f_type_name f = Some n -> In (n, k) sig_names -> len = N.of_nat (raw_len k) -> False) ->
     exists o, m p e = (Ok (indicator o), p, e) /\ match o with Some k => signs f k | None => forall k, ~ signs f k end).
  { intros m Hm H. exists None. split; [exact Hm|apply Hno, H]. }
  destruct (t_def (hu_ty x)) as [| | |len elem| | | |] eqn:Hd; try (apply (Hnone (ret SigNone)); [reflexivity|congruence]).
  pose proof (resolve_total types elem p e) as Hr2. unfold bind at 1. unfold catch. destruct (lookup types elem) as [te|] eqn:Hle; rewrite Hr2.
  2: { apply (Hnone (ret SigNone)); [reflexivity|congruence]. }
  destruct (t_def te) as [| | | | |pr| |] eqn:Hte; try (apply (Hnone (ret SigNone)); [reflexivity|congruence]).
  destruct pr as [| | |w| | |]; try (apply (Hnone (ret SigNone)); [reflexivity|congruence]).
  destruct w; try (apply (Hnone (ret SigNone)); [reflexivity|congruence]).
  destruct (f_type_name f) as [n|] eqn:Hn; [|apply (Hnone (ret SigNone)); [reflexivity|congruence]].
  unfold str_in, SIGNATURE_ECDSA_ID_SET, SIGNATURE_ED25519_ID_SET, SIGNATURE_SR25519_ID_SET. cbn [existsb]. rewrite !Bool.orb_false_r.
  assert (Hsome : forall k, In (n, k) sig_names -> len = N.of_nat (raw_len k) -> signs f k).
  { intros k Hi Hlen. econstructor; eauto. }
  assert (Hnot : forall k, In (n, k) sig_names -> len <> N.of_nat (raw_len k) -> forall k', ~ signs f k').
  { intros k Hi Hlen k' Hs. assert (k' = k).
    { destruct Hs as [n2 y l2 e2 t2 Hn2 Hi2 _ _ _ _ _]. assert (n2 = n) by congruence. subst n2. unfold sig_names in *.
      repeat match goal with H : In _ (_ :: _) |- _ => destruct H as [H|H] | H : In _ [] |- _ => destruct H end; congruence. }
    subst k'. destruct Hs as [n2 y l2 e2 t2 Hn2 Hi2 Hy Ha Hl Hp Hlen2]. pose proof (reaches_det _ _ _ _ _ Hr _ Hy) as Hxy. injection Hxy as <-. congruence. }
  assert (Hcase : forall k s, In (n, k) sig_names -> fixed_len k = N.of_nat (raw_len k) -> indicator (Some k) = s ->
     exists o, @ret E parser_err _ (if (len =? fixed_len k)%N then s else SigNone) p e = (Ok (indicator o), p, e) /\
       match o with Some k => signs f k | None => forall k, ~ signs f k end).
  { intros k s Hi Hk <-. rewrite Hk. destruct (len =? N.of_nat (raw_len k))%N eqn:Hlen.
    - exists (Some k). split; [reflexivity|]. apply Hsome; [exact Hi|lia].
    - exists None. split; [reflexivity|]. apply (Hnot k Hi). lia. }
  destruct (String.eqb n "ecdsa::Signature") eqn:H1.
  { apply String.eqb_eq in H1. subst n. apply Hcase; try reflexivity. cbn; auto. }
  destruct (String.eqb n "ed25519::Signature") eqn:H2.
  { apply String.eqb_eq in H2. subst n. apply Hcase; try reflexivity. cbn; auto. }
  destruct (String.eqb n "sr25519::Signature") eqn:H3.
  { apply String.eqb_eq in H3. subst n. apply Hcase; try reflexivity. cbn; auto. }
  exists None. split; [reflexivity|]. intros k [n2 y l2 e2 t2 Hn2 Hi2 _ _ _ _ _]. assert (n2 = n) by congruence. subst n2.
  apply String.eqb_neq in H1, H2, H3. unfold sig_names in Hi2.
  repeat match goal with H : In _ (_ :: _) |- _ => destruct H as [H|H] | H : In _ [] |- _ => destruct H end; congruence.
Qed.

(** *** Recognised types *)
Local Notation found := (found types).
Variable data : bytes.
Local Notation buf := (@slice_buffer E data).

Lemma found_det t o k1 n1 k2 n2 : found t o k1 n1 -> found t o k2 n2 -> k1 = k2 /\ n1 = n2.
Proof.
  intros H1 H2. destruct H1, H2; try congruence; try (split; congruence);
    repeat match goal with
    | A : classify ?t = SpItem ?x, B : classify ?t = SpItem ?y |- _ => match x with y => fail 1 | _ => assert (x = y) by congruence; subst y end
    | A : t_def ?t = TVariant ?x, B : t_def ?t = TVariant ?y |- _ => match x with y => fail 1 | _ => assert (x = y) by congruence; subst y end
    | A : ?o = Some ?x, B : ?o = Some ?y |- _ => match x with y => fail 1 | _ => assert (x = y) by congruence; subst y end
    | A : v_fields ?v = [?x], B : v_fields ?v = [?y] |- _ => match x with y => fail 1 | _ => assert (x = y) by congruence; subst y end
    end;
    first
    [ match goal with A : signs ?f ?x, B : signs ?f ?y |- _ => pose proof (signs_det _ _ _ A B); split; congruence end
    | exfalso; match goal with A : signs _ _, B : forall _ _ _ _ _, _ |- _ => eapply B; eauto; fail end
    | exfalso; match goal with A : signs _ _, B : forall _ _ _ _ _, _ |- _ => eapply B; [..|exact A]; eauto; fail end
    | split; congruence
    | exfalso; match goal with B : forall _ _ _ _ _ _, _ |- _ => eapply B; eauto; fail end
    | idtac ].
Qed.

Theorem checked_exact t p (e : E) : exists k n, found t (nth_error data p) k n /\
  checked_from_type buf reg t p e = (Ok k, (p + n)%nat, e).
Proof.
  unfold checked_from_type. rewrite hinted_classify. unfold hinted_of.
  assert (H0 : forall k, found t (nth_error data p) k 0 -> exists k' n, found t (nth_error data p) k' n /\
     @ret E parser_err checked k p e = (Ok k', (p + n)%nat, e)).
  { intros k Hk. exists k, 0%nat. split; [exact Hk|]. rewrite Nat.add_0_r. reflexivity. }
  destruct (classify t) as [|k| | |k| |it] eqn:Hc; try (apply H0; constructor; assumption).
  - destruct (strs_eqb (t_path t) opaque_path); apply H0; apply F_plain; assumption.
  - destruct (t_def t) as [|vs| | | | | |] eqn:Hd; try (apply H0; apply F_no_signature; congruence).
    unfold bind at 1, get_pos. unfold bind at 1, catch. pose proof (pick_variant_total (E := E) data vs p p e) as Hp.
    destruct (nth_error data p) as [i|] eqn:Hi.
    2: { destruct Hp as [x ->]. apply H0. apply F_no_signature; congruence. }
    destruct (by_index vs i) as [v|] eqn:Hv; rewrite Hp.
    2: { apply H0. apply F_no_signature; [assumption|]. intros vs' i' v' f k Hd' Hi' Hv'. congruence. }
    destruct (v_fields v) as [|f [|f2 fs]] eqn:Hf;
      try (apply H0; apply F_no_signature; [assumption|]; intros vs' i' v' f' k' Hd' Hi' Hv' Hf'; congruence).
    destruct (signature_exact f p e) as (o & Hs & Ho). unfold bind at 1. rewrite Hs. destruct o as [k|].
    + assert (Hk : found t (Some i) (CFixed k) 1) by (eapply F_signature; eauto).
      destruct Ho as [n x len elem te Hn Hin _ _ _ _ _]. unfold sig_names in Hin.
      repeat match goal with H : In _ (_ :: _) |- _ => destruct H as [H|H] | H : In _ [] |- _ => destruct H end; injection Hin as _ <-;
        eexists _, 1%nat; (split; [exact Hk|reflexivity]).
    + cbn [indicator]. apply H0. apply F_no_signature; [assumption|]. intros vs' i' v' f' k Hd' Hi' Hv' Hf'.
      assert (vs' = vs) by congruence. assert (i' = i) by congruence. subst. assert (v' = v) by congruence. subst. assert (f' = f) by congruence. subst. apply Ho.
  - destruct (t_def t) as [|vs| | | | | |] eqn:Hd; try (apply H0; eapply F_no_item; [eassumption|congruence]).
    unfold bind at 1, get_pos. unfold bind at 1, catch. pose proof (pick_variant_total (E := E) data vs p p e) as Hp.
    destruct (nth_error data p) as [i|] eqn:Hi.
    2: { destruct Hp as [x ->]. apply H0. eapply F_no_item; [eassumption|congruence]. }
    destruct (by_index vs i) as [v|] eqn:Hv; rewrite Hp.
    2: { apply H0. eapply F_no_item; [eassumption|]. intros vs' i' v' f inner items Hd' Hi' Hv'. congruence. }
    destruct (v_fields v) as [|f [|f2 fs]] eqn:Hf;
      try (apply H0; eapply F_no_item; [eassumption|]; intros vs' i' v' f' inner items Hd' Hi' Hv' Hf'; congruence).
    pose proof (resolve_total types (f_ty f) p e) as Hr. unfold bind at 1. unfold catch.
    assert (Hno : (forall inner items, lookup types (f_ty f) = Some inner -> classify inner = SpItem it -> t_def inner = TVariant items -> False) ->
       found t (Some i) CNone 0).
    { intros H. eapply F_no_item; [eassumption|]. intros vs' i' v' f' inner items Hd' Hi' Hv' Hf' Hl Hcl Hit.
      assert (vs' = vs) by congruence. assert (i' = i) by congruence. subst. assert (v' = v) by congruence. subst. assert (f' = f) by congruence. subst. eauto. }
    destruct (lookup types (f_ty f)) as [inner|] eqn:Hl; rewrite Hr; [|apply H0, Hno; congruence].
    rewrite hinted_classify. unfold hinted_of.
    destruct (classify inner) as [| | | | | |it2] eqn:Hci; try (apply H0, Hno; congruence).
    { destruct (strs_eqb (t_path inner) opaque_path); apply H0, Hno; congruence. }
    destruct (pitem_eqb it it2) eqn:He.
    + assert (it2 = it) by (destruct it, it2; try discriminate; reflexivity). subst it2.
      destruct (t_def inner) as [|items| | | | | |] eqn:Hdi; try (apply H0, Hno; congruence).
      eexists _, 1%nat. split; [eapply F_item; eauto|]. reflexivity.
    + apply H0, Hno. intros inner' items Hl' Hcl. injection Hl' as <-. rewrite Hci in Hcl. injection Hcl as <-. destruct it2; discriminate.
Qed.

(** *** Enum variants and bit orders *)

Theorem pick_exact vs at_p p (e : E) :
  pick_variant buf vs at_p p e =
  (match nth_error data at_p with
   | Some i => match by_index vs i with Some v => Ok v | None => Err (UnexpectedEnumVariant at_p) end
   | None => Err (PBuffer (if (at_p <=? List.length data)%nat then DataTooShort at_p 1 else OutOfRange at_p (List.length data)))
   end, p, e).
Proof.
  pose proof (pick_variant_total (E := E) data vs at_p p e) as Hp. destruct (nth_error data at_p) as [i|] eqn:Hi.
  - destruct (by_index vs i); exact Hp.
  - apply nth_error_None in Hi. unfold pick_variant, read_byte, bind, read_slice. cbn [rd slice_buffer]. unfold slice_rd.
    destruct (List.length data <? at_p)%nat eqn:H1; destruct (at_p <=? List.length data)%nat eqn:H2; try lia; [reflexivity|].
    destruct (N.of_nat (List.length data) <? N.of_nat at_p + 1)%N eqn:H3; [reflexivity|lia].
Qed.

Theorem order_exact order id p (e : E) : exists r, order_answer types order id r /\
  find_bit_order_ty reg order id p e = (match r with inl x => Ok x | inr x => Err x end, p, e).
Proof.
  unfold find_bit_order_ty, bind at 1. pose proof (resolve_total types order p e) as Hr.
  destruct (lookup types order) as [t|] eqn:Hl; rewrite Hr; [|eexists; split; [apply OA_unknown; assumption|reflexivity]].
  assert (Hno : (forall fs, t_def t = TComposite fs -> t_path t <> [] -> List.last (t_path t) "" <> "Lsb0" /\ List.last (t_path t) "" <> "Msb0") ->
    exists r, order_answer types order id r /\ @fail E reg_err bit_order (RInternal (NotBitOrderType id)) p e = (match r with inl x => Ok x | inr x => Err x end, p, e)).
  { intros H. eexists. split; [eapply OA_other; eassumption|reflexivity]. }
  destruct (t_def t) as [fs| | | | | | |] eqn:Hd; try (apply Hno; congruence).
  assert (Hpath : path_ident (t_path t) = match t_path t with [] => None | _ => Some (List.last (t_path t) "") end).
  { clear. induction (t_path t) as [|a l IH]; [reflexivity|]. cbn [path_ident]. destruct l as [|b l]; [reflexivity|]. exact IH. }
  rewrite Hpath. destruct (t_path t) as [|a l] eqn:Hp; [apply Hno; congruence|]. rewrite <- Hp in *.
  destruct (String.eqb _ "Lsb0") eqn:H1; [apply String.eqb_eq in H1; eexists; split; [eapply OA_lsb; eassumption|reflexivity]|].
  destruct (String.eqb _ "Msb0") eqn:H2; [apply String.eqb_eq in H2; eexists; split; [eapply OA_msb; eassumption|reflexivity]|].
  apply Hno. intros _ _ _. apply String.eqb_neq in H1, H2. auto.
Qed.

Lemma order_det order id r1 r2 : order_answer types order id r1 -> order_answer types order id r2 -> r1 = r2.
Proof.
  intros H1 H2. destruct H1, H2; try congruence;
    repeat match goal with A : lookup _ _ = Some ?x, B : lookup _ _ = Some ?y |- _ => match x with y => fail 1 | _ => assert (x = y) by congruence; subst y end end;
    try congruence; exfalso;
    match goal with B : forall _, _ -> _ -> _ /\ _, D : t_def ?t = TComposite _ |- _ =>
      destruct (B _ D) as [? ?]; [intros Hnil; rewrite Hnil in *; discriminate|congruence] end.
Qed.
End Husk.
