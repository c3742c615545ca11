(** C52: the text of an error tells which error it is. *)
From Coq Require Import Lia.
From Verif Require Import Base Compact Types Indicators Decode Sign Unchecked Storage Meta Balance Cards Errors SpecErrors
  Spec SpecBalance SpecCards SpecSee SpecSign
  ProofBase ProofSpec ProofCor ProofRead ProofBalance ProofCards ProofShow ProofSee ProofKinds ProofSign ProofSign2 ProofPeel ProofMain Api ApiSign.
Local Open Scope string_scope.
Local Open Scope list_scope.

(** ** Strings *)

Lemma app_nil_s s : (s ++ "" = s)%string.
Proof. induction s as [|c s IH]; [reflexivity|]. cbn. rewrite IH. reflexivity. Qed.

Lemma clash_l a b x : clash a b = true -> (a ++ x)%string <> b.
Proof. intros H E. apply (clash_ne a b x "" H). rewrite E. symmetry. apply app_nil_s. Qed.
Lemma clash_r a b y : clash a b = true -> a <> (b ++ y)%string.
Proof. intros H E. apply (clash_ne a b "" y H). rewrite <- E. apply app_nil_s. Qed.
Lemma clash_0 a b : clash a b = true -> a <> b.
Proof. intros H E. subst b. induction a as [|c a IH]; [discriminate H|]. cbn [clash] in H. rewrite Ascii.eqb_refl in H. auto. Qed.

(** Numbers followed by something else than a digit. *)
Lemma dec_then c x y a b : is_digit c = false ->
  (dec_string a ++ String c x = dec_string b ++ String c y)%string -> a = b /\ x = y.
Proof.
  intros H E. apply without_split in E.
  - destruct E as [E ->]. split; [apply dec_inj; exact E|reflexivity].
  - apply digits_without; [exact H|apply dec_digits].
  - apply digits_without; [exact H|apply dec_digits].
Qed.

Lemma nat_then c x y a b : is_digit c = false ->
  (nat_string a ++ String c x = nat_string b ++ String c y)%string -> a = b /\ x = y.
Proof. intros H E. apply dec_then in E; [|exact H]. destruct E as [E ->]. split; [lia|reflexivity]. Qed.

Lemma dec_apart c d x y a b : is_digit c = false -> is_digit d = false -> c <> d ->
  (dec_string a ++ String c x <> dec_string b ++ String d y)%string.
Proof.
  intros Hc Hd N. generalize (dec_digits a), (dec_digits b). generalize (dec_string a) as s, (dec_string b) as t.
  induction s as [|e s IH]; intros [|f t] A B E; cbn [String.append all_digits] in *.
  - injection E as E _. contradiction.
  - injection E as <- _. rewrite Hc in B. discriminate B.
  - injection E as -> _. rewrite Hd in A. discriminate A.
  - injection E as -> E. apply andb_true_iff in A, B. exact (IH t (proj2 A) (proj2 B) E).
Qed.

Lemma str_cancel_right a : forall x y, (x ++ a = y ++ a)%string -> x = y.
Proof.
  assert (L : forall x y : string, String.length (x ++ y)%string = (String.length x + String.length y)%nat).
  { intros x y. induction x as [|c x IH]; [reflexivity|]. cbn. rewrite IH. reflexivity. }
  induction x as [|c x IH]; intros [|d y] H.
  - reflexivity.
  - apply (f_equal String.length) in H. cbn [String.append String.length] in H. rewrite L in H. lia.
  - apply (f_equal String.length) in H. cbn [String.append String.length] in H. rewrite L in H. lia.
  - cbn [String.append] in H. injection H as -> H. f_equal. auto.
Qed.

Lemma prefix_app a b : String.prefix a (a ++ b)%string = true.
Proof. induction a as [|c a IH]; [destruct b; reflexivity|]. cbn. destruct (ascii_dec c c); [exact IH|contradiction]. Qed.

(** From the end: digits preceded by something else than a digit. *)
Fixpoint rev_string (s : string) : string :=
  match s with "" => "" | String c r => (rev_string r ++ String c "")%string end.
Lemma rev_app a b : rev_string (a ++ b)%string = (rev_string b ++ rev_string a)%string.
Proof.
  induction a as [|c a IH]; cbn [String.append rev_string]; [symmetry; apply app_nil_s|].
  rewrite IH, str_assoc. reflexivity.
Qed.
Lemma rev_inj a b : rev_string a = rev_string b -> a = b.
Proof.
  assert (I : forall s, rev_string (rev_string s) = s).
  { induction s as [|c s IH]; [reflexivity|]. cbn [rev_string]. rewrite rev_app. cbn. rewrite IH. reflexivity. }
  intros H. rewrite <- (I a), <- (I b), H. reflexivity.
Qed.
Lemma digits_rev s : all_digits s = true -> all_digits (rev_string s) = true.
Proof.
  induction s as [|c s IH]; [reflexivity|]. cbn [all_digits rev_string]. intros H. apply andb_true_iff in H.
  rewrite all_digits_app, IH by tauto. cbn. rewrite (proj1 H). reflexivity.
Qed.

Lemma before_dec c x y a b : is_digit c = false ->
  ((x ++ String c "") ++ dec_string a = (y ++ String c "") ++ dec_string b)%string -> x = y /\ a = b.
Proof.
  intros Hc E. apply (f_equal rev_string) in E. rewrite !rev_app in E. cbn [rev_string String.append] in E.
  apply without_split in E.
  - destruct E as [E1 E2]. apply rev_inj in E1, E2. apply dec_inj in E1. auto.
  - apply digits_without; [exact Hc|apply digits_rev, dec_digits].
  - apply digits_without; [exact Hc|apply digits_rev, dec_digits].
Qed.

Lemma hex_digits l : is_bytes l -> without " " (hex_encode l) = true /\ without "." (hex_encode l) = true.
Proof.
  assert (D : forall n, (n < 16)%N -> Ascii.eqb " " (hex_digit n) = false /\ Ascii.eqb "." (hex_digit n) = false).
  { intros n H. assert (C : In n [0;1;2;3;4;5;6;7;8;9;10;11;12;13;14;15]%N).
    { cbn. destruct n as [|p]; [tauto|]. do 4 (destruct p as [p|p|]; try tauto; try lia). }
    repeat (destruct C as [<-|C]; [vm_compute; auto|]). destruct C. }
  induction l as [|b l IH]; intros H; [split; reflexivity|]. inversion H as [|? ? Hb Hl]; subst. unfold is_byte in Hb.
  cbn [hex_encode without]. destruct (IH Hl) as [-> ->].
  destruct (D (b / 16)%N) as [-> ->]; [apply N.div_lt_upper_bound; lia|].
  destruct (D (b mod 16)%N) as [-> ->]; [apply N.mod_lt; lia|]. split; reflexivity.
Qed.

Ltac apart :=
  match goal with
  | E : (?a ++ ?x = ?b ++ ?y)%string |- _ => exfalso; exact (clash_ne a b x y eq_refl E)
  | E : (?a ++ ?x = ?b)%string |- _ => exfalso; exact (clash_l a b x eq_refl E)
  | E : (?a = ?b ++ ?y)%string |- _ => exfalso; exact (clash_r a b y eq_refl E)
  | E : (?a = ?b)%string |- _ => exfalso; exact (clash_0 a b eq_refl E)
  end.

(** ** The texts *)

Theorem int_telling : telling anything int_text.
Proof.
  intros x y _ _ E. destruct x, y; unfold int_text in E; try apart; try reflexivity.
  all: apply str_cancel_left in E; apply dec_then in E; [|reflexivity]; destruct E as [-> E]; try reflexivity.
  all: apply clash_0 in E; [contradiction|reflexivity].
Qed.

Theorem extensions_telling : telling anything extensions_text.
Proof. intros x y _ _ E. destruct x, y; unfold extensions_text in E; try apart; reflexivity. Qed.

Theorem version_telling : telling anything version_text.
Proof. intros x y _ _ E. destruct x, y; unfold version_text in E; try apart; reflexivity. Qed.

Theorem v14_telling : telling anything v14_text.
Proof.
  intros x y _ _ E. destruct x as [x| | | | |x|x], y as [y| | | | |y|y]; unfold v14_text in E; try apart; try reflexivity.
  all: try (exfalso; destruct x; unfold version_text in E; try apart; fail).
  all: try (exfalso; destruct y; unfold version_text in E; try apart; fail).
  - apply str_cancel_left in E. f_equal. apply int_telling; [exact I|exact I|exact E].
  - apply str_cancel_left in E; apply dec_then in E; [|reflexivity]; destruct E as [-> E]. reflexivity.
  - f_equal. apply version_telling; [exact I|exact I|exact E].
Qed.

Section Texts.
Variable buffer_text : buf_err -> string.
Variable external_text : N -> string.
Hypothesis Hb : buffer_texts_fit buffer_text.
Hypothesis He : telling anything external_text.

Lemma registry_telling : telling anything (registry_text external_text).
Proof.
  intros x y _ _ E. destruct x as [x|x], y as [y|y]; unfold registry_text in E.
  - apply str_cancel_left in E. f_equal. apply He; [exact I|exact I|exact E].
  - destruct y; unfold int_text in E; apart.
  - destruct x; unfold int_text in E; apart.
  - f_equal. apply int_telling; [exact I|exact I|exact E].
Qed.

(** Every text of the crate's own has one of the openings. *)
Lemma opened x : (forall b, x <> PBuffer b) ->
  exists o, In o openings /\ String.prefix o (parser_text buffer_text external_text x) = true.
Proof.
  assert (G : forall o s, In o openings -> forall r, s = (o ++ r)%string -> exists o, In o openings /\ String.prefix o s = true).
  { intros o s H r ->. exists o. split; [exact H|apply prefix_app]. }
  intros H. destruct x as [b|[c|x] |p|p|p t|p]; [destruct (H b eq_refl)|..].
  - eapply (G "Error accessing type from external memory. "); [cbn; tauto|reflexivity].
  - destruct x.
    + eapply (G "Resolving type id "); [cbn; tauto|reflexivity].
    + eapply (G "Extrinsic type in "); [cbn; tauto|reflexivity].
    + eapply (G "BitVec type "); [cbn; tauto|reflexivity].
    + eapply (G "BitVec type "); [cbn; tauto|reflexivity].
    + eapply (G "Unable to "); [cbn; tauto|reflexivity].
    + eapply (G "Compact type "); [cbn; tauto|reflexivity].
    + eapply (G "Decoding is based "); [cbn; tauto|reflexivity].
  - eapply (G "Expected compact "); [cbn; tauto|reflexivity].
  - eapply (G "Some data "); [cbn; tauto|reflexivity].
  - eapply (G "Unable to "); [cbn; tauto|reflexivity].
  - eapply (G "Encountered "); [cbn; tauto|reflexivity].
Qed.

Lemma not_buffer b x : (forall b, x <> PBuffer b) -> buffer_text b <> parser_text buffer_text external_text x.
Proof. intros H E. destruct (opened x H) as (o & A & B). rewrite <- E, (proj2 Hb) in B by exact A. discriminate B. Qed.

Theorem parser_telling : telling anything (parser_text buffer_text external_text).
Proof.
  intros x y _ _ E.
  assert (C : (exists a, x = PBuffer a) \/ forall b, x <> PBuffer b) by (destruct x; [left; eauto|right; congruence..]).
  assert (D : (exists a, y = PBuffer a) \/ forall b, y <> PBuffer b) by (destruct y; [left; eauto|right; congruence..]).
  destruct C as [ [a ->] |C], D as [ [b ->] |D].
  - f_equal. apply (proj1 Hb); [exact I|exact I|exact E].
  - exfalso. exact (not_buffer a y D E).
  - exfalso. symmetry in E. exact (not_buffer b x C E).
  - destruct x as [a|a|p|p|p s|p]; [destruct (C a eq_refl)|..]; (destruct y as [b|b|q|q|q t|q]; [destruct (D b eq_refl)|..]);
      cbn [parser_text] in E; try apart.
    all: try (exfalso; destruct a as [a|[] ]; cbn [registry_text int_text] in E; apart).
    all: try (exfalso; destruct b as [b|[] ]; cbn [registry_text int_text] in E; apart).
    + f_equal. apply registry_telling; [exact I|exact I|exact E].
    + apply str_cancel_left in E; apply nat_then in E; [|reflexivity]. destruct E as [-> _]. reflexivity.
    + apply str_cancel_left in E; apply nat_then in E; [|reflexivity]. destruct E as [-> _]. reflexivity.
    + apply str_cancel_left in E; apply nat_then in E; [|reflexivity]. destruct E as [-> E].
      apply (str_cancel_left "as ") in E. apply str_cancel_right in E. subst t. reflexivity.
    + apply str_cancel_left in E; apply nat_then in E; [|reflexivity]. destruct E as [-> _]. reflexivity.
Qed.

Theorem storage_telling : telling anything (storage_text buffer_text external_text).
Proof.
  intros x y _ _ E. destruct x, y; unfold storage_text in E; try apart; try reflexivity.
  all: apply str_cancel_left in E; f_equal; apply parser_telling; [exact I|exact I|exact E].
Qed.

Section Meta.
Context {ME : Type}.
Variable meta_text : ME -> string.
Hypothesis Hm : telling anything meta_text.

Theorem unchecked_telling : telling anything (unchecked_text buffer_text external_text meta_text).
Proof.
  intros x y _ _ E. destruct x, y; unfold unchecked_text in E; try apart; try reflexivity.
  - apply str_cancel_left in E. f_equal. apply Hm; [exact I|exact I|exact E].
  - apply str_cancel_left in E. f_equal. apply parser_telling; [exact I|exact I|exact E].
  - apply str_cancel_left in E; apply dec_then in E; [|reflexivity]. destruct E as [-> E].
    apply (str_cancel_left "does not match with version ") in E.
    apply dec_then in E; [|reflexivity]. destruct E as [-> _]. reflexivity.
  - apply str_cancel_left in E; apply dec_then in E; [|reflexivity]. destruct E as [-> _]. reflexivity.
Qed.

Theorem signable_telling : telling reported (signable_text buffer_text external_text meta_text).
Proof.
  intros x y Rx Ry E. destruct x, y; cbn [signable_text] in E; try apart; try reflexivity.
  all: try (exfalso; match type of E with context [extensions_text ?z] => destruct z end; cbn [extensions_text] in E; apart).
  - f_equal. apply extensions_telling; [exact I|exact I|exact E].
  - apply str_cancel_left in E. f_equal. apply Hm; [exact I|exact I|exact E].
  - apply str_cancel_left in E; apply dec_then in E; [|reflexivity]. destruct E as [-> _]. reflexivity.
  - apply str_cancel_left in E. f_equal. apply parser_telling; [exact I|exact I|exact E].
  - apply str_cancel_left in E; apply nat_then in E; [|reflexivity]. destruct E as [-> E].
    apply (str_cancel_left ".") in E. apply nat_then in E; [|reflexivity]. destruct E as [-> _]. reflexivity.
  - apply str_cancel_left in E; apply nat_then in E; [|reflexivity]. destruct E as [-> _]. reflexivity.
  - apply str_cancel_left in E. cbn [reported] in Rx, Ry. destruct Rx as [A1 A2], Ry as [B1 B2].
    apply without_split in E; [|apply hex_digits; assumption..]. destruct E as [E1 E].
    apply (str_cancel_left "does not match the expected one ") in E.
    apply without_split in E; [|apply hex_digits; assumption..]. destruct E as [E2 _].
    apply hex_inj in E1; [|assumption..]. apply hex_inj in E2; [|assumption..]. subst. reflexivity.
  - apply str_cancel_left in E. cbn [reported] in Rx, Ry. destruct Rx as [v ->], Ry as [w ->].
    rewrite <- !str_assoc in E. apply str_cancel_right in E.
    change ", the apparent spec version in extensions is "%string
      with (", the apparent spec version in extensions is" ++ String " " "")%string in E.
    rewrite <- !str_assoc in E. apply before_dec in E; [|reflexivity]. destruct E as [E ->].
    apply str_cancel_right in E. subst. reflexivity.
Qed.
End Meta.
End Texts.

(** ** The errors that are returned *)

(** Hashes found in decoded data are made of bytes. *)
Definition hash_bytes (d : pdata) : Prop :=
  match d with
  | DHash _ h => is_bytes h
  | DComposite [f] => match x_data (fd_data f) with DHash _ h => is_bytes h | _ => True end
  | _ => True
  end.

Section View.
Variable types : list ty.
Notation enc := (enc types).
Notation view := (view types).

Lemma hash_bytes_sequence inf l : hash_bytes (sequence_of inf l).
Proof. unfold sequence_of. destruct (collect l); exact I. Qed.

Lemma view_hash_bytes v : forall cpt elem h id bs d l, enc cpt id v = Some bs -> view elem h id v = Some (d, l) -> hash_bytes d.
Proof.
  induction v as [n|z|b|cs|vs IH|vs IH|i vs IH| |vs IH|vs IH|v IH|n elems|bs'|er|i bs'|i j vs IH] using value_ind';
    intros cpt elem h id bs d l Ee E.
  all: destruct (lookup types id) as [t|] eqn:El; [|cbn [Spec.view] in E; rewrite El in E; discriminate E].
  all: lazymatch type of E with
    | Spec.view _ _ _ _ (VStruct _) = _ => idtac | Spec.view _ _ _ _ (VRaw _) = _ => idtac
    | Spec.view _ _ _ _ (VSeq _) = _ => idtac
    | Spec.view _ _ _ _ (VArr _) = _ => idtac | Spec.view _ _ _ _ (VCompact _) = _ => idtac
    | _ => cbn [Spec.view] in E; rewrite El in E;
        repeat match type of E with (match ?x with _ => _ end = _) => destruct x eqn:?; try discriminate E end;
        injection E as <- <-; try exact Logic.I
    end.
  - destruct (def_of t) as [td|] eqn:Ed; [|cbn [Spec.view] in E; rewrite El, Ed in E; discriminate E].
    destruct td; try (cbn [Spec.view] in E; rewrite El, Ed in E; discriminate E).
    rewrite (view_struct types _ _ _ _ _ _ El Ed) in E.
    cbn [Spec.enc] in Ee. rewrite El, Ed in Ee. destruct (cpt && _)%bool; [discriminate Ee|].
    assert (G : match fields_view types h fields vs with Some l => Some (DComposite l, own_info t) | None => None end
                = Some (d, l) -> hash_bytes d).
    { destruct (fields_view types h fields vs) as [fl|] eqn:Ef; [|discriminate].
      intros E'. injection E' as <- <-. destruct fl as [|x [|y r]]; try exact Logic.I. cbn [hash_bytes].
      unfold fields_view in Ef. destruct fields as [|f fr]; [destruct vs; discriminate Ef|].
      destruct vs as [|v vs]; [discriminate Ef|]. inversion IH as [|? ? Hv _]; subst.
      cbn [view_list] in Ef.
      destruct (view false (or_label (pass_label h (List.length (f :: fr))) (field_label f)) (f_ty f) v) as [[d' i]|] eqn:Ev;
        [|discriminate Ef]. cbn [option_map] in Ef.
      match type of Ef with (match ?x with _ => _ end = _) => destruct x as [l'|]; [|discriminate Ef] end.
      injection Ef as <- _. cbn [fd_data x_data fst snd].
      apply enc_list_cons in Ee. destruct Ee as (v1 & vs1 & b1 & b2 & Evs & Eb & _). injection Evs as <- <-.
      specialize (Hv _ _ _ _ _ _ _ Eb Ev). destruct d'; try exact Logic.I. exact Hv. }
    destruct elem; [|exact (G E)]. destruct (transparent t); [|exact (G E)].
    destruct fields as [|f [|g r]]; try exact (G E). destruct vs as [|v [|v' r']]; try exact (G E).
    inversion IH as [|? ? Hv _]; subst. apply enc_list_cons in Ee. destruct Ee as (v1 & vs1 & b1 & b2 & Evs & Eb & _).
    injection Evs as <- <-. eapply Hv; eauto.
  - destruct (def_of t) as [td|] eqn:Ed; [|cbn [Spec.view] in E; rewrite El, Ed in E; discriminate E].
    destruct td; try (cbn [Spec.view] in E; rewrite El, Ed in E; discriminate E).
    rewrite (view_seq types _ _ _ _ _ _ El Ed) in E. unfold seq_view in E.
    repeat match type of E with (match ?x with _ => _ end = _) => destruct x eqn:?; try discriminate E end.
    injection E as <- <-. apply hash_bytes_sequence.
  - destruct (def_of t) as [td|] eqn:Ed; [|cbn [Spec.view] in E; rewrite El, Ed in E; discriminate E].
    destruct td; try (cbn [Spec.view] in E; rewrite El, Ed in E; discriminate E).
    rewrite (view_arr types _ _ _ _ _ _ _ El Ed) in E. unfold seq_view in E.
    repeat match type of E with (match ?x with _ => _ end = _) => destruct x eqn:?; try discriminate E end.
    injection E as <- <-. apply hash_bytes_sequence.
  - destruct (def_of t) as [td|] eqn:Ed; [|cbn [Spec.view] in E; rewrite El, Ed in E; discriminate E].
    destruct td; try (cbn [Spec.view] in E; rewrite El, Ed in E; discriminate E).
    rewrite (view_compact types _ _ _ _ _ _ El Ed) in E.
    destruct (view (elem && is_some (transparent t)) h inner v) as [[d' l']|] eqn:Ev; [|discriminate E].
    injection E as <- <-. cbn [Spec.enc] in Ee. rewrite El, Ed in Ee. destruct cpt; [discriminate Ee|]. eapply IH; eauto.
  - cbn [Spec.view] in E; rewrite El in E. cbn [Spec.enc] in Ee. rewrite El in Ee.
    destruct (classify t); try discriminate E; injection E as <- <-; try exact Logic.I.
    unfold guard in Ee. destruct (_ && _ && _)%bool eqn:Eg; [|discriminate Ee]. injection Ee as <-.
    apply andb_true_iff in Eg. destruct Eg as [Eg _]. apply andb_true_iff in Eg. destruct Eg as [_ Eg].
    cbn [hash_bytes]. unfold is_bytesb in Eg. rewrite forallb_forall in Eg. apply Forall_forall. intros b Hi.
    apply N.ltb_lt. exact (Eg b Hi).
  - destruct (classify t) as [ |k| | |k| |[] ]; exact Logic.I.
Qed.

Lemma turn_hash_bytes data l : is_bytes data -> forall p xs q, read_in_turn types data l p xs q ->
  Forall (fun x => hash_bytes (x_data x)) xs.
Proof.
  intros Hb p xs q H. induction H as [|i id l p x p' xs q Hd H IH]; constructor; [|exact IH].
  apply (hinted_sound types _ data id p x p' Hb) in Hd. destruct Hd as (v & bs & He & Hv & _).
  eapply view_hash_bytes; eauto.
Qed.

Lemma genesis_bytes xs : Forall (fun x => hash_bytes (x_data x)) xs -> forall g, In g (genesis_hashes xs) -> is_bytes g.
Proof.
  intros H g Hg. unfold genesis_hashes in Hg. apply in_flat_map in Hg. destruct Hg as (f & Hf & Hg).
  destruct f as [v|h|h|e]; [destruct Hg| |destruct Hg|destruct Hg]. destruct Hg as [->|[] ].
  unfold findings in Hf. apply in_flat_map in Hf. destruct Hf as (x & Hx & Hf).
  rewrite Forall_forall in H. specialize (H x Hx). unfold finding_of in Hf.
  destruct (x_data x) as [ |s h| | | | |w v s| | | | | | |l| | | | | | ]; cbn in Hf; try contradiction.
  - destruct s; cbn in Hf; try contradiction; destruct Hf as [Hf|[] ]; first [discriminate Hf|injection Hf as <-; exact H].
  - destruct s; cbn in Hf; try contradiction. destruct Hf as [Hf|[] ]. discriminate Hf.
  - destruct Hf as [Hf|[] ]. discriminate Hf.
  - destruct l as [|f [|f' r]]; cbn in Hf; try contradiction. cbn [hash_bytes] in H.
    destruct (x_data (fd_data f)) as [ |s h| | | | |w v s| | | | | | | | | | | | | ]; cbn in Hf; try contradiction.
    + destruct s; cbn in Hf; try contradiction; destruct Hf as [Hf|[] ]; first [discriminate Hf|injection Hf as <-; exact H].
    + destruct s; cbn in Hf; try contradiction. destruct Hf as [Hf|[] ]. discriminate Hf.
    + destruct Hf as [Hf|[] ]. discriminate Hf.
Qed.
End View.

Section Returned.
Context {ME : Type}.
Variable c : chain ME.
Variable g : option bytes.
Hypothesis Hg : match g with Some h => is_bytes h | None => True end.

Lemma extensions_reported data mk x : is_bytes data -> extensions_of c g data mk = Err x -> reported x.
Proof.
  intros Hb H. pose proof (extensions_outcome c g data mk) as O. rewrite H in O.
  inversion O as [ | |? ? ? ? ? ? E| |l xs nv y Hl Hr Hs J| ]; subst; try exact Logic.I.
  inversion J as [ | | | |v h h' _ _ _ Hh He| | ]; subst; try exact Logic.I.
  - cbn. eauto.
  - cbn. split; [|exact Hg].
    eapply genesis_bytes; [eapply turn_hash_bytes; eauto|]. rewrite Hh. left. reflexivity.
Qed.

Lemma call_reported data start stop x : call_outcome c data start stop (Err x) -> reported x.
Proof. intros H. inversion H; exact Logic.I. Qed.

Theorem transaction_reported data x : is_bytes data ->
  transaction c g data = Err x \/ (exists t, transaction c g data = Ok t /\ tp_call t = inr x) -> reported x.
Proof.
  intros Hb. rewrite transaction_eq. destruct (@mark_spec ME _ Hb) as [(n & call & rest & Hf & Hd & Hn & Hm)|[_ Hm]].
  2: { rewrite Hm. intros [H|(t & H & _)]; [|discriminate H]. injection H as <-. exact Logic.I. }
  pose proof (mark_inside data _ Hb Hm) as Hi. rewrite Hm.
  match goal with |- context [extensions_of c g data ?m] => set (mk := m) in * end.
  destruct (extensions_of c g data mk) as [xs|y| |] eqn:He.
  - pose proof (call_answer c data mk (proj2 Hi)) as O. destruct (call_of c data mk) as [call'|z| |].
    + intros [H|(t & H & E)]; [discriminate H|]. injection H as <-. discriminate E.
    + intros [H|(t & H & E)]; [discriminate H|]. injection H as <-. injection E as <-. exact (call_reported _ _ _ _ O).
    + intros [H|(t & H & E)]; discriminate H.
    + intros [H|(t & H & E)]; discriminate H.
  - intros [H|(t & H & E)]; [|discriminate H]. injection H as <-. exact (extensions_reported _ _ _ Hb He).
  - intros [H|(t & H & E)]; discriminate H.
  - intros [H|(t & H & E)]; discriminate H.
Qed.

Theorem unmarked_reported data x : is_bytes data -> transaction_unmarked c g data = Err x -> reported x.
Proof.
  intros Hb.
  unfold transaction_unmarked, result, parse_transaction_unmarked.
  unfold bind at 1, at_local at 1. unfold bind at 1, decode_as_call_unmarked. cbn [chain_metadata m_call_ty m_types].
  destruct (ch_call c) as [id|y] eqn:Hc.
  2: { intros H. injection H as <-. exact Logic.I. }
  unfold bind at 1. cbn [lift ret]. unfold map_err at 1, ret at 1. unfold bind at 1, map_err at 1.
  destruct (decode_with_type (slice_buffer data) (portable (ch_types c)) (Symbol id) propagated_new 0 tt) as [[o q] []].
  destruct o as [y|y| |].
  2: { intros H. injection H as <-. exact Logic.I. }
  2, 3: intros H; discriminate H.
  intros H.
  destruct (x_data y); try (injection H as <-; exact Logic.I).
  pose proof (extensions_reported data (Marked 0 q) x Hb) as R.
  unfold extensions_of, result, decode_extensions in R. unfold bind, ret, at_local in *. cbn [extensions_start] in R.
  destruct (decode_extensions_unmarked (slice_buffer data) (chain_metadata c) g q tt) as [[[ys|z| |] q2] []]; try discriminate H.
  apply R. cbn [fst] in H |- *. congruence.
Qed.
End Returned.
