(** Proofs of C45. *)
From Coq Require Import Lia.
From Verif Require Import Base Compact Types Decode Sign Balance Cards Spec SpecBalance SpecCards ProofBase
  ProofBalance ProofCards.
Local Open Scope string_scope.

Lemma indent_blanks n : indent_str n = blanks (2 * n).
Proof.
  induction n as [|n IH]; [reflexivity|]. cbn [indent_str]. rewrite IH.
  replace (2 * S n)%nat with (S (S (2 * n))) by lia. reflexivity.
Qed.

Lemma str_assoc (a b c : string) : (a ++ b) ++ c = a ++ b ++ c.
Proof. induction a as [|x a IH]; cbn; [reflexivity|]. rewrite IH. reflexivity. Qed.

Lemma str_nil_r (a : string) : a ++ "" = a.
Proof. induction a as [|x a IH]; cbn; [reflexivity|]. rewrite IH. reflexivity. Qed.

Lemma z_print z : integer_print (z_string z) z.
Proof.
  unfold integer_print. destruct z as [|p|p].
  - left. split; [lia|apply (dec_decimal 0)].
  - left. split; [lia|apply (dec_decimal (Npos p))].
  - right. split; [lia|]. exists (dec_string (Npos p)). split; [reflexivity|apply dec_decimal].
Qed.

Lemma utf8_same c : scalar c = true -> utf8_encode c = utf8 c.
Proof. intros _. reflexivity. Qed.

Section Show.
Variable bits_string : uwidth -> bit_order -> list bool -> string.
Notation show := (show bits_string).
Notation show_with_docs := (show_with_docs bits_string).

Lemma show_text c : exists text, prints bits_string c text /\
  forall n i, show (ECard c n i) = blanks (2 * n) ++ text.
Proof.
  assert (L : forall label p (P : string -> Prop), P p -> kind bits_string c = Some (label, P) ->
    (forall n i, show (ECard c n i) = readable n label p) ->
    exists text, prints bits_string c text /\ forall n i, show (ECard c n i) = blanks (2 * n) ++ text).
  { intros label p P HP Hk Hs. exists (label ++ ": " ++ p). split.
    - unfold prints. rewrite Hk. eauto.
    - intros n i. rewrite Hs. unfold readable. rewrite indent_blanks. reflexivity. }
  Ltac go L := eapply L; [|reflexivity|reflexivity].
  destruct c.
  - destruct c; go L; [reflexivity|exact I].
  - go L. reflexivity.
  - destruct order, store; go L; reflexivity.
  - destruct s; go L; intros Hb; apply unhex_hex; exact Hb.
  - go L. reflexivity.
  - go L. eexists. split; [apply dec_decimal|reflexivity].
  - exists "Enum With No Variants". split; [reflexivity|]. intros n i. cbn [Cards.show ec_card ec_indent]. rewrite indent_blanks. reflexivity.
  - exists "Enum". split; [reflexivity|]. intros n i. cbn [Cards.show ec_card ec_indent]. rewrite indent_blanks. reflexivity.
  - go L. reflexivity.
  - destruct e; go L; [reflexivity|]. do 2 eexists. split; [apply dec_decimal|split; [apply dec_decimal|reflexivity] ].
  - go L. reflexivity.
  - go L. reflexivity.
  - go L. apply dec_decimal.
  - destruct k; go L; intros Hb; apply unhex_hex; exact Hb.
  - destruct k; go L; reflexivity.
  - go L. reflexivity.
  - go L. reflexivity.
  - go L. reflexivity.
  - destruct k; go L; apply dec_decimal.
  - go L. reflexivity.
  - go L. intros Hc. rewrite (utf8_same _ Hc). reflexivity.
  - destruct w; go L; apply z_print.
  - go L. apply z_print.
  - destruct w; go L; apply dec_decimal.
  - go L. apply dec_decimal.
  - go L. eexists. split; [apply dec_decimal|reflexivity].
  - destruct text; go L; reflexivity.
  - go L. reflexivity.
  - go L. reflexivity.
  - destruct c; go L; [reflexivity|exact I].
  - go L. reflexivity.
  - go L. eexists. split; [apply dec_decimal|reflexivity].
  - go L. reflexivity.
Qed.

Lemma join_commas l : join "," l = commas l.
Proof. induction l as [|a [|b r] IH]; [reflexivity|reflexivity|]. cbn [join commas] in *. rewrite IH. reflexivity. Qed.

Lemma lines_ok n l : info_printed n l = info_lines n l.
Proof.
  induction l as [|i l IH]; [reflexivity|]. cbn [info_printed info_lines]. rewrite IH, indent_blanks. reflexivity.
Qed.

Lemma note_nonempty l : l <> [] -> str_is_empty (join "," (map info_string l)) = false.
Proof. destruct l as [|i [|j r]]; [contradiction|reflexivity|reflexivity]. Qed.

Lemma show_docs c : show_with_docs c = show c ++ element_note (element_infos (ec_card c)) ++ info_lines (ec_indent c) (ec_info c).
Proof.
  unfold Cards.show_with_docs. rewrite lines_ok. rewrite <- str_assoc. f_equal.
  destruct c as [c n i]. cbn [ec_card ec_indent ec_info].
  destruct c; try (cbn [element_infos element_note]; rewrite str_nil_r; reflexivity).
  - cbn [element_infos]. destruct element_info_flat as [|a l]; [cbn; rewrite str_nil_r; reflexivity|].
    rewrite note_nonempty by discriminate. rewrite join_commas. unfold element_note, readable.
    cbn [Cards.show ec_card ec_indent]. unfold readable. rewrite !str_assoc. reflexivity.
  - cbn [element_infos]. destruct element_info_flat as [|a l]; [cbn [map join str_is_empty element_note]; rewrite str_nil_r; reflexivity|].
    rewrite note_nonempty by discriminate. rewrite join_commas. unfold element_note, readable.
    cbn [Cards.show ec_card ec_indent]. unfold readable. destruct text; rewrite !str_assoc; reflexivity.
Qed.
End Show.
