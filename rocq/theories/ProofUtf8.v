(** Text: [utf8_valid] accepts exactly the concatenations of UTF-8 encodings. *)
From Coq Require Import Lia ZifyBool ZifyNat ZifyN.
From Verif Require Import Base Compact Types Decode Spec ProofBase.
Ltac Zify.zify_post_hook ::= Z.div_mod_to_equations.
Local Open Scope list_scope.

Lemma cons_eq {A} (x y : A) l m : x = y -> l = m -> x :: l = y :: m.
Proof. congruence. Qed.

Lemma cons_inv {A} (x y : A) l m : x :: l = y :: m -> x = y /\ l = m.
Proof. intros H. split; congruence. Qed.

Lemma utf8_cases c : scalar c = true ->
  (c < 0x80 /\ utf8 c = [c])%N \/
  (0x80 <= c < 0x800 /\ utf8 c = [0xC0 + c / 64; 0x80 + c mod 64])%N \/
  (0x800 <= c < 0x10000 /\ ~ (0xD800 <= c <= 0xDFFF) /\
    utf8 c = [0xE0 + c / 4096; 0x80 + (c / 64) mod 64; 0x80 + c mod 64])%N \/
  (0x10000 <= c <= 0x10FFFF /\
    utf8 c = [0xF0 + c / 262144; 0x80 + (c / 4096) mod 64; 0x80 + (c / 64) mod 64;
              0x80 + c mod 64])%N.
Proof.
  unfold scalar, utf8. intros H.
  change (2 ^ 6)%N with 64%N. change (2 ^ 12)%N with 4096%N. change (2 ^ 18)%N with 262144%N.
  destruct (N.ltb_spec c 0x80) as [H1|H1]; [left; auto|right].
  destruct (N.ltb_spec c 0x800) as [H2|H2]; [left; auto|right].
  destruct (N.ltb_spec c 0x10000) as [H3|H3]; [left; repeat split; auto; lia|right].
  split; auto. lia.
Qed.

Lemma utf8_valid_cons c r : scalar c = true -> utf8_valid (utf8 c ++ r) = utf8_valid r.
Proof.
  intros H.
  destruct (utf8_cases c H) as [(Hc & ->)|[(Hc & ->)|[(Hc & Hs & ->)|(Hc & ->)]]];
    cbn [app utf8_valid].
  - replace (c <=? 0x7F)%N with true by lia. reflexivity.
  - replace (0xC0 + c / 64 <=? 0x7F)%N with false by lia.
    unfold inr_, cont, inr_.
    match goal with |- (if ?a then _ else _) = _ => replace a with true by lia end.
    reflexivity.
  - replace (0xE0 + c / 4096 <=? 0x7F)%N with false by lia.
    unfold inr_, cont, inr_.
    match goal with |- (if ?a then _ else _) = _ => replace a with false by lia end.
    match goal with |- (if ?a then _ else _) = _ => replace a with true by lia end.
    reflexivity.
  - replace (0xF0 + c / 262144 <=? 0x7F)%N with false by lia.
    unfold inr_, cont, inr_.
    match goal with |- (if ?a then _ else _) = _ => replace a with false by lia end.
    match goal with |- (if ?a then _ else _) = _ => replace a with false by lia end.
    match goal with |- (if ?a then _ else _) = _ => replace a with true by lia end.
    reflexivity.
Qed.

Lemma utf8_valid_utf8s l : forallb scalar l = true -> utf8_valid (utf8s l) = true.
Proof.
  induction l as [|c l IH]; [reflexivity|]. cbn [forallb]. intros H.
  apply andb_true_iff in H. destruct H as [Hc Hl].
  change (utf8s (c :: l)) with (utf8 c ++ utf8s l).
  rewrite utf8_valid_cons; auto.
Qed.

Lemma utf8_1 b : (b <= 0x7F)%N -> scalar b = true /\ utf8 b = [b].
Proof.
  intros H. split; [unfold scalar; lia|]. unfold utf8. replace (b <? 0x80)%N with true by lia.
  reflexivity.
Qed.

Lemma utf8_valid_inv_aux n : forall l, (List.length l <= n)%nat -> utf8_valid l = true ->
  exists cs, forallb scalar cs = true /\ l = utf8s cs.
Proof.
  induction n as [|n IH]; intros l Hn.
  { destruct l; [|cbn in Hn; lia]. intros _. exists []. auto. }
  assert (Hstep : forall c r, scalar c = true -> l = utf8 c ++ r -> (List.length r <= n)%nat ->
            utf8_valid r = true -> exists cs, forallb scalar cs = true /\ l = utf8s cs).
  { intros c r Hc Hl Hr Hv. destruct (IH r Hr Hv) as (cs & Hcs & ->).
    exists (c :: cs). cbn [forallb]. rewrite Hc, Hcs. split; auto. }
  destruct l as [|b0 r0]; [intros _; exists []; auto|].
  cbn [utf8_valid]. cbn [List.length] in Hn.
  destruct (N.leb_spec b0 0x7F) as [H0|H0].
  { intros Hv. destruct (utf8_1 b0 H0) as [Hs Hu].
    apply (Hstep b0 r0); auto; [rewrite Hu; reflexivity|lia]. }
  destruct r0 as [|b1 r1]; [discriminate|]. cbn [List.length] in Hn.
  destruct (inr_ 0xC2 0xDF b0 && cont b1)%bool eqn:H1.
  { intros Hv. unfold cont, inr_ in H1.
    set (c := ((b0 - 0xC0) * 64 + (b1 - 0x80))%N).
    assert (Hc : (0x80 <= c < 0x800)%N) by (unfold c; lia).
    apply (Hstep c r1); auto; [unfold scalar; lia| |lia].
    unfold utf8. replace (c <? 0x80)%N with false by lia. replace (c <? 0x800)%N with true by lia.
    change (2 ^ 6)%N with 64%N. cbn [app]. repeat (apply cons_eq; [unfold c; lia|]). reflexivity. }
  destruct r1 as [|b2 r2]; [discriminate|]. cbn [List.length] in Hn.
  match goal with |- (if ?a then _ else _) = true -> _ => destruct a eqn:H2 end.
  { intros Hv. unfold cont, inr_ in H2.
    set (c := ((b0 - 0xE0) * 4096 + (b1 - 0x80) * 64 + (b2 - 0x80))%N).
    assert (Hr : (0xE0 <= b0 <= 0xEF /\ 0x80 <= b1 <= 0xBF /\ 0x80 <= b2 <= 0xBF)%N) by lia.
    assert (Hc : (0x800 <= c < 0x10000 /\ ~ (0xD800 <= c <= 0xDFFF))%N) by (unfold c; lia).
    apply (Hstep c r2); auto; [unfold scalar; lia| |lia].
    unfold utf8. replace (c <? 0x80)%N with false by lia. replace (c <? 0x800)%N with false by lia.
    replace (c <? 0x10000)%N with true by lia.
    change (2 ^ 6)%N with 64%N. change (2 ^ 12)%N with 4096%N.
    cbn [app]. clear H1 H2 Hc. repeat (apply cons_eq; [unfold c; lia|]). reflexivity. }
  destruct r2 as [|b3 r3]; [discriminate|]. cbn [List.length] in Hn.
  match goal with |- (if ?a then _ else _) = true -> _ => destruct a eqn:H3 end; [|discriminate].
  intros Hv. unfold cont, inr_ in H3.
  set (c := ((b0 - 0xF0) * 262144 + (b1 - 0x80) * 4096 + (b2 - 0x80) * 64 + (b3 - 0x80))%N).
  assert (Hr : (0xF0 <= b0 <= 0xF4 /\ 0x80 <= b1 <= 0xBF /\ 0x80 <= b2 <= 0xBF
                /\ 0x80 <= b3 <= 0xBF)%N) by lia.
  assert (Hc : (0x10000 <= c <= 0x10FFFF)%N) by (unfold c; lia).
  apply (Hstep c r3); auto; [unfold scalar; lia| |lia].
  unfold utf8. replace (c <? 0x80)%N with false by lia. replace (c <? 0x800)%N with false by lia.
  replace (c <? 0x10000)%N with false by lia.
  change (2 ^ 6)%N with 64%N. change (2 ^ 12)%N with 4096%N. change (2 ^ 18)%N with 262144%N.
  cbn [app]. clear H1 H2 H3 Hc. repeat (apply cons_eq; [unfold c; lia|]). reflexivity.
Qed.

Lemma utf8_valid_spec l : utf8_valid l = true <-> exists cs, forallb scalar cs = true /\ l = utf8s cs.
Proof.
  split.
  - apply (utf8_valid_inv_aux (List.length l)). lia.
  - intros (cs & Hs & ->). apply utf8_valid_utf8s, Hs.
Qed.

Lemma utf8_is_bytes c : scalar c = true -> is_bytes (utf8 c).
Proof.
  intros H. unfold scalar in H.
  destruct (utf8_cases c H) as [(Hc & ->)|[(Hc & ->)|[(Hc & Hs & ->)|(Hc & ->)]]];
  repeat constructor; unfold is_byte; lia.
Qed.

Lemma utf8s_is_bytes l : forallb scalar l = true -> is_bytes (utf8s l).
Proof.
  induction l as [|c l IH]; cbn [forallb]; intros H; [constructor|].
  apply andb_true_iff in H. destruct H as [Hc Hl].
  apply is_bytes_app. split; [apply utf8_is_bytes; auto | apply IH; auto].
Qed.

(** UTF-8 is injective, so the text determines the scalar values. *)
Lemma utf8_prefix c d r s : scalar c = true -> scalar d = true ->
  utf8 c ++ r = utf8 d ++ s -> c = d /\ r = s.
Proof.
  intros Hc Hd.
  destruct (utf8_cases c Hc) as [(H & ->)|[(H & ->)|[(H & Hs & ->)|(H & ->)]]];
  destruct (utf8_cases d Hd) as [(G & ->)|[(G & ->)|[(G & Gs & ->)|(G & ->)]]];
  cbn [app]; intros Heq;
  repeat match goal with
  | H : _ :: _ = _ :: _ |- _ => apply cons_inv in H; destruct H
  end; split; try assumption; try lia.
Qed.

Lemma utf8s_inj l : forall m, forallb scalar l = true -> forallb scalar m = true ->
  utf8s l = utf8s m -> l = m.
Proof.
  assert (Hne : forall c r, utf8 c ++ r <> []).
  { intros c r. unfold utf8.
    destruct (c <? 0x80)%N; [discriminate|]. destruct (c <? 0x800)%N; [discriminate|].
    destruct (c <? 0x10000)%N; discriminate. }
  induction l as [|c l IH]; intros [|d m]; cbn [forallb]; intros Hl Hm Heq; auto.
  - symmetry in Heq. exfalso. apply (Hne d (utf8s m) Heq).
  - exfalso. apply (Hne c (utf8s l) Heq).
  - apply andb_true_iff in Hl. apply andb_true_iff in Hm.
    destruct Hl as [Hc Hl], Hm as [Hd Hm].
    change (utf8 c ++ utf8s l = utf8 d ++ utf8s m) in Heq.
    destruct (utf8_prefix c d _ _ Hc Hd Heq) as [-> Hr]. f_equal. apply IH; auto.
Qed.
