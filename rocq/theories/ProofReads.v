(** The number of reads (C65). *)
From Coq Require Import Lia ZifyBool ZifyNat ZifyN.
From Verif Require Import Base Compact Types Indicators Decode Sign Unchecked Storage Spec SpecReads.
Local Open Scope list_scope.

Section Reads.
Context {E : Type}.
Variable count : E -> nat.

(** The run makes at most [k] reads, with [Q] or [R] about the end. *)
Definition pays {X A} (p : nat) (Q : A -> nat -> nat -> Prop) (R : nat -> nat -> Prop) (m : M E X A) : Prop :=
  forall e, let '(o, q, e') := m p e in
    exists k, (count e' <= count e + k)%nat /\ match o with Ok a => Q a q k | _ => R q k end.

Definition fair {A} (p : nat) (_ : A) (q k : nat) : Prop := (p <= q /\ k <= 2 * (q - p))%nat.
Definition late (p q k : nat) : Prop := (p <= q /\ k <= 2 * (q - p) + 19)%nat.
Definition still {A} (p : nat) (P : A -> Prop) (a : A) (q k : nat) : Prop := q = p /\ k = 0%nat /\ P a.
Definition stop (p q k : nat) : Prop := q = p /\ k = 0%nat.
Definition any {A} (_ : A) : Prop := True.

Lemma pays_imp {X A} p (Q Q2 : A -> nat -> nat -> Prop) (R R2 : nat -> nat -> Prop) (m : M E X A) : pays p Q R m ->
  (forall a q k, Q a q k -> Q2 a q k) -> (forall q k, R q k -> R2 q k) -> pays p Q2 R2 m.
Proof.
  intros H HQ HR e. specialize (H e). destruct (m p e) as [[[a|x| |] q] e']; destruct H as (k & Hk & H); exists k; auto.
Qed.
Lemma pays_bind {X A C} p (Q : A -> nat -> nat -> Prop) (Q2 : C -> nat -> nat -> Prop) (R : nat -> nat -> Prop)
    (m : M E X A) (f : A -> M E X C) : pays p Q R m ->
  (forall a q k, Q a q k -> pays q (fun c q' k' => Q2 c q' (k + k')%nat) (fun q' k' => R q' (k + k')%nat) (f a)) ->
  pays p Q2 R (bind m f).
Proof.
  intros Hm Hf e. specialize (Hm e). unfold bind.
  destruct (m p e) as [[[a|x| |] q] e']; destruct Hm as (k & Hk & Hm); try (exists k; auto).
  specialize (Hf a q k Hm e'). destruct (f a q e') as [[o q'] e2]. destruct Hf as (k' & Hk' & Hf). exists (k + k')%nat.
  split; [lia|exact Hf].
Qed.
Lemma pays_ret {X A} p (Q : A -> nat -> nat -> Prop) R (a : A) : Q a p 0%nat -> @pays X A p Q R (ret a).
Proof. intros H e. exists 0%nat. cbn. split; [lia|exact H]. Qed.
Lemma pays_fail {X A} p (Q : A -> nat -> nat -> Prop) (R : nat -> nat -> Prop) (x : X) : R p 0%nat -> @pays X A p Q R (fail x).
Proof. intros H e. exists 0%nat. cbn. split; [lia|exact H]. Qed.
Lemma pays_panic {X A} p (Q : A -> nat -> nat -> Prop) (R : nat -> nat -> Prop) : R p 0%nat -> @pays X A p Q R panic.
Proof. intros H e. exists 0%nat. cbn. split; [lia|exact H]. Qed.
Lemma pays_fuel {X A} p (Q : A -> nat -> nat -> Prop) (R : nat -> nat -> Prop) : R p 0%nat -> @pays X A p Q R out_of_fuel.
Proof. intros H e. exists 0%nat. cbn. split; [lia|exact H]. Qed.
Lemma pays_get {X C} p (Q : C -> nat -> nat -> Prop) R (f : nat -> M E X C) : pays p Q R (f p) -> pays p Q R (bind get_pos f).
Proof. intros H e. exact (H e). Qed.
Lemma pays_set {X C} p n (Q : C -> nat -> nat -> Prop) R (f : unit -> M E X C) : pays n Q R (f tt) -> pays p Q R (bind (set_pos n) f).
Proof. intros H e. exact (H e). Qed.
Lemma pays_map_err {X Y A} p (Q : A -> nat -> nat -> Prop) R (g : X -> Y) m : pays p Q R m -> pays p Q R (map_err g m).
Proof. intros H e. specialize (H e). unfold map_err. destruct (m p e) as [[[a|x| |] q] e']; exact H. Qed.
Lemma pays_catch {X Y A} p (Q : A -> nat -> nat -> Prop) (R : nat -> nat -> Prop) (m : M E X A) : pays p Q R m ->
  @pays Y _ p (fun s q k => match s with inl a => Q a q k | inr _ => R q k end) R (catch m).
Proof. intros H e. specialize (H e). unfold catch. destruct (m p e) as [[[a|x| |] q] e']; exact H. Qed.
Lemma pays_lift {X A} p (x : A + X) : pays p (still p (@any _)) (stop p) (lift x).
Proof. destruct x; [apply pays_ret|apply pays_fail]; repeat split. Qed.
Lemma pays_lift_int {A} p (x : A + int_err) : pays p (still p (@any _)) (stop p) (lift_int x).
Proof. apply pays_map_err, pays_lift. Qed.
Lemma pays_lift_p {A} p (x : A + int_err) : pays p (still p (@any _)) (stop p) (lift_p x).
Proof. apply pays_map_err, pays_lift. Qed.
Lemma pays_reject p c : pays p (still p (@any _)) (stop p) (reject_compact_m c).
Proof. apply pays_map_err, pays_lift. Qed.
Lemma pays_local {X A} p p0 (Q : A -> nat -> nat -> Prop) (R : nat -> nat -> Prop) (m : M E X A) : pays p0 Q R m ->
  pays p (fun x q k => q = p /\ Q (fst x) (snd x) k) (fun q k => q = p /\ exists q', R q' k) (at_local p0 m).
Proof.
  intros H e. specialize (H e). unfold at_local.
  destruct (m p0 e) as [[[a|x| |] q] e']; destruct H as (k & Hk & H); exists k; cbn [fst snd]; eauto.
Qed.

(** After a step that does not read. *)
Lemma still_bind {X A C} p (P : A -> Prop) (Q : C -> nat -> nat -> Prop) (R : nat -> nat -> Prop) (m : M E X A) f :
  pays p (still p P) (stop p) m -> R p 0%nat -> (forall a, P a -> pays p Q R (f a)) -> pays p Q R (bind m f).
Proof.
  intros Hm HR Hf. eapply pays_bind.
  - eapply pays_imp; [exact Hm|intros a q k H; exact H|]. intros q k [-> ->]. exact HR.
  - intros a q k (-> & -> & Ha). exact (Hf a Ha).
Qed.
(** A fair step, then fair ones. *)
Lemma fair_bind {X A C} p (m : M E X A) (f : A -> M E X C) : pays p (fair p) (late p) m ->
  (forall a q, (p <= q)%nat -> pays q (fair q) (late q) (f a)) -> pays p (fair p) (late p) (bind m f).
Proof.
  intros Hm Hf. eapply pays_bind; [exact Hm|]. intros a q k [H1 H2]. eapply pays_imp; [apply Hf, H1| |].
  - intros c q' k' [H3 H4]. split; lia.
  - intros q' k' [H3 H4]. split; lia.
Qed.
Lemma fair_ret {X A} p (a : A) : @pays X A p (fair p) (late p) (ret a).
Proof. apply pays_ret. split; lia. Qed.
Lemma fair_fail {X A} p (x : X) : @pays X A p (fair p) (late p) (fail x).
Proof. apply pays_fail. split; lia. Qed.
Lemma late_start p : late p p 0.
Proof. split; lia. Qed.

Section Source.
Variable r : registry E.
Variable b : buffer E.
Hypothesis Hrd : counts_reads count b.
Hypothesis Hres : lookup_is_free count r.
Hypothesis Htidy : registry_inhabited r.

Ltac fret := apply fair_ret.
Ltac ffail := apply fair_fail.

Lemma pays_resolve p id : pays p (still p inhabited_items) (stop p) (resolve_ty r id).
Proof.
  intros e. unfold resolve_ty. pose proof (Hres id e) as H. pose proof (Htidy id e) as Ht.
  destruct (resolve r id e) as [[t|x] e'] eqn:Hr; exists 0%nat; (split; [exact (Nat.le_trans _ _ _ H (Nat.le_add_r _ _))|]).
  - split; [reflexivity|]. split; [reflexivity|]. exact (Ht _ _ eq_refl).
  - split; reflexivity.
Qed.

Lemma pays_slice p a n : pays p (fun _ q k => q = p /\ k = 1%nat) (fun q k => q = p /\ k = 1%nat) (read_slice b a n).
Proof.
  intros e. unfold read_slice. pose proof (Hrd a n e) as H. destruct (rd b a n e) as [[l|x] e']; exists 1%nat; cbn [snd] in H; split; auto; lia.
Qed.
Lemma pays_byte p a : pays p (fun _ q k => q = p /\ k = 1%nat) (fun q k => q = p /\ k = 1%nat) (read_byte b a).
Proof.
  unfold read_byte. eapply pays_bind; [apply pays_slice|]. intros l q k [-> ->].
  destruct l as [|x [|]]; [apply pays_panic|apply pays_ret|apply pays_panic]; auto.
Qed.

Lemma pays_find_loop w a n : forall p i, (i <= 18)%nat ->
  pays p (fun x q k => q = p /\ (i + k <= 18)%nat /\ match x with Some (_, s) => s = (a + i + k)%nat /\ (0 < k)%nat | None => True end)
    (fun q k => q = p /\ (i + k <= 18)%nat) (find_loop w b a n i).
Proof.
  induction n as [|n IH]; intros p i Hi; cbn [find_loop]; [apply pays_ret; auto with arith; repeat split; lia|].
  destruct (Nat.ltb_spec MAX_COMPACT_LEN i) as [Hm|Hm]; unfold MAX_COMPACT_LEN in Hm; [apply pays_ret; repeat split; lia|].
  eapply pays_bind.
  { eapply pays_imp; [apply pays_slice|intros l q k H; exact H|]. intros q k [-> ->]. split; lia. }
  intros l q k [-> ->]. destruct (compact_decode w l).
  - apply pays_ret. split; [reflexivity|]. split; [lia|]. split; lia.
  - eapply pays_imp; [apply IH; lia| |].
    + intros [[v s]|] q k (-> & H1 & H2); repeat split; lia.
    + intros q k [-> H1]. split; lia.
Qed.

Lemma pays_find_compact w a p :
  pays p (fun x q k => q = p /\ (0 < k <= 18)%nat /\ snd x = (a + k)%nat) (fun q k => q = p /\ (k <= 18)%nat) (find_compact w b a).
Proof.
  unfold find_compact. destruct (_ <? _)%nat; [apply pays_fail; split; lia|].
  eapply pays_bind.
  { eapply pays_imp; [apply pays_find_loop; lia|intros x q k H; exact H|]. intros q k [-> H]. split; lia. }
  intros [[v s]|] q k (-> & H1 & H2).
  - apply pays_ret. cbn [snd]. repeat split; lia.
  - apply pays_fail. split; lia.
Qed.

Lemma pays_get_compact w p : pays p (fun _ q k => (0 < k <= 18)%nat /\ q = (p + k)%nat) (fun q k => q = p /\ (k <= 18)%nat) (get_compact w b).
Proof.
  unfold get_compact. apply pays_get. eapply pays_bind; [apply pays_find_compact|]. intros x q k (-> & H1 & H2).
  apply pays_set, pays_ret. split; lia.
Qed.
Lemma fair_get_compact w p : pays p (fair p) (late p) (get_compact w b).
Proof.
  eapply pays_imp; [apply pays_get_compact| |].
  - intros a q k [H1 ->]. split; lia.
  - intros q k [-> H]. split; lia.
Qed.

Lemma fair_cut {A} p n name (f : bytes -> option A) : (0 < n)%N -> pays p (fair p) (late p) (cut_and_decode b n name f).
Proof.
  intros Hn. unfold cut_and_decode. apply pays_get. eapply pays_bind with (Q := fun _ q k => q = p /\ k = 1%nat).
  { unfold read_exact. apply pays_get. eapply pays_bind.
    - eapply pays_imp; [apply pays_slice|intros l q k H; exact H|]. intros q k [-> ->]. split; lia.
    - intros l q k [-> ->]. destruct (_ =? _)%N; [apply pays_ret|apply pays_panic]; split; lia. }
  intros l q k [-> ->]. destruct (f l).
  - unfold shift_pos. intros e. exists 0%nat. cbn. split; [lia|]. split; lia.
  - apply pays_fail. split; lia.
Qed.

Lemma fair_block {A} p c (m : M E parser_err A) : pays p (fair p) (late p) m -> pays p (fair p) (late p) (block_compact c m).
Proof. intros H. unfold block_compact. destruct (compact_at c); [ffail|exact H]. Qed.

Lemma fair_str p h : pays p (fair p) (late p) (decode_str b h).
Proof.
  unfold decode_str. apply pays_get. eapply pays_bind.
  { eapply pays_imp; [apply pays_find_compact|intros x q k H; exact H|]. intros q k [-> H]. split; lia. }
  intros [v s] q k (-> & H1 & H2). cbn [snd] in H2. eapply pays_bind.
  { eapply pays_imp; [apply pays_slice|intros l q k' H; exact H|]. intros q k' [-> ->]. split; lia. }
  intros l q k' [-> ->]. destruct (utf8_valid l); [apply pays_set, pays_ret|apply pays_fail]; split; lia.
Qed.

Lemma usize_pos w : (0 < N.of_nat (usize w))%N.
Proof. destruct w; reflexivity. Qed.

Lemma fair_uint p w c : pays p (fair p) (late p) (parse_uint b w c).
Proof.
  unfold parse_uint. apply fair_bind; [|intros; fret].
  destruct (compact_at c); [apply fair_get_compact|apply fair_cut, usize_pos].
Qed.
Lemma fair_primitive p x c : pays p (fair p) (late p) (decode_primitive b x c).
Proof.
  destruct x; cbn [decode_primitive].
  3: { eapply still_bind; [apply pays_reject|apply late_start|]. intros _ _. apply fair_str. }
  3: apply fair_uint.
  all: apply fair_block, fair_bind; [apply fair_cut; try apply usize_pos; reflexivity|intros; fret].
Qed.
Lemma fair_per p x c : pays p (fair p) (late p) (parse_per b x c).
Proof.
  unfold parse_per. apply fair_bind; [|intros; fret].
  destruct (compact_at c); [|apply fair_cut, usize_pos]. apply fair_bind; [apply fair_get_compact|intros; fret].
Qed.
Lemma fair_fixed p x c : pays p (fair p) (late p) (parse_fixed b x c).
Proof. apply fair_block, fair_bind; [apply fair_cut; destruct x; reflexivity|intros; fret]. Qed.
Lemma fair_h256 p s : pays p (fair p) (late p) (special_case_h256 b s).
Proof. unfold special_case_h256. apply fair_bind; [apply fair_cut; reflexivity|intros; fret]. Qed.

Lemma fair_era p : pays p (fair p) (late p) (special_case_era b).
Proof.
  unfold special_case_era. apply pays_get. eapply pays_bind.
  { eapply pays_imp; [apply pays_slice|intros l q k H; exact H|]. intros q k [-> ->]. split; lia. }
  intros l q k [-> ->]. destruct (era_decode_all l).
  - apply pays_set, pays_ret. split; lia.
  - eapply pays_bind.
    { eapply pays_imp; [apply pays_slice|intros l2 q k H; exact H|]. intros q k [-> ->]. split; lia. }
    intros l2 q k [-> ->]. destruct (era_decode_all l2); [apply pays_set, pays_ret|apply pays_fail]; split; lia.
Qed.

Lemma fair_bitvec p n : pays p (fair p) (late p) (into_bitvec_decode b n).
Proof.
  unfold into_bitvec_decode. apply pays_get.
  eapply pays_bind with (Q := fun x q k => q = p /\ (0 < k <= 18)%nat /\ (N.of_nat k <= snd x)%N).
  { unfold bitvec_positions. eapply pays_bind.
    { eapply pays_imp; [apply pays_find_compact|intros x q k H; exact H|]. intros q k [-> H]. split; lia. }
    intros [v s] q k (-> & H1 & H2). cbn [snd] in H2. apply pays_ret. cbn [snd]. repeat split; lia. }
  intros [[? ?] x] q k (-> & H1 & H2). cbn [snd] in H2. eapply pays_bind.
  { eapply pays_imp; [apply pays_slice|intros l q k' H; exact H|]. intros q k' [-> ->]. split; lia. }
  intros l q k' [-> ->]. apply pays_set, pays_ret. split; lia.
Qed.

Lemma still_bit_order p order id : pays p (still p (@any _)) (stop p) (find_bit_order_ty r order id).
Proof.
  unfold find_bit_order_ty. eapply still_bind; [apply pays_resolve|split; reflexivity|]. intros t _.
  destruct (t_def t); try (apply pays_fail; split; reflexivity).
  destruct (path_ident (t_path t)); [|apply pays_fail; split; reflexivity].
  destruct (String.eqb _ _); [apply pays_ret; repeat split|].
  destruct (String.eqb _ _); [apply pays_ret; repeat split|apply pays_fail; split; reflexivity].
Qed.

Lemma fair_bits p store order id : pays p (fair p) (late p) (decode_bit_sequence b r store order id).
Proof.
  unfold decode_bit_sequence. apply pays_get.
  eapply still_bind; [apply pays_map_err, still_bit_order|apply late_start|]. intros o _.
  eapply still_bind; [apply pays_map_err, pays_resolve|apply late_start|]. intros t _.
  destruct (t_def t) as [| | | | |[| | |w| | |] | |]; try ffail. destruct w; try ffail.
  all: apply fair_bind; [apply fair_bitvec|]; intros l q _; destruct (bitvec_decode_all _ o l); [fret|ffail].
Qed.

Lemma still_husk_loop fuel : forall p t id c acc, inhabited_items t ->
  pays p (still p (fun h => inhabited_items (hu_ty h))) (stop p) (husk_loop r fuel t id c acc).
Proof.
  induction fuel as [|fuel IH]; intros p t id c acc Ht; cbn [husk_loop]; [apply pays_fuel; split; reflexivity|].
  assert (Hret : forall acc', pays p (still p (fun h => inhabited_items (hu_ty h))) (stop p) (@ret E reg_err _ (Husked acc' c t id))).
  { intros. apply pays_ret. split; [reflexivity|]. split; [reflexivity|exact Ht]. }
  destruct (hinted_from_type t); try apply Hret.
  destruct (t_def t) as [fs| | | | | |inner|] eqn:Hd; try apply Hret.
  - destruct fs as [|f [|]]; try apply Hret.
    eapply still_bind; [apply pays_lift_int|split; reflexivity|]. intros c1 _.
    eapply still_bind; [apply pays_resolve|split; reflexivity|]. intros t1 H1. apply IH, H1.
  - eapply still_bind; [apply pays_lift_int|split; reflexivity|]. intros _ _.
    eapply still_bind; [apply pays_lift_int|split; reflexivity|]. intros c1 _.
    eapply still_bind; [apply pays_resolve|split; reflexivity|]. intros t1 H1. apply IH, H1.
Qed.
Lemma still_husk p id c : pays p (still p (fun h => inhabited_items (hu_ty h))) (stop p) (husk_type r id c).
Proof.
  unfold husk_type. eapply still_bind; [apply pays_lift_int|split; reflexivity|]. intros c1 _.
  eapply still_bind; [apply pays_resolve|split; reflexivity|]. intros t Ht. apply still_husk_loop, Ht.
Qed.

(** After a step that does not read, its failure included. *)
Lemma catch_bind {X Y A C} p (P : A -> Prop) (Q : C -> nat -> nat -> Prop) (R : nat -> nat -> Prop) (m : M E X A) (f : A + X -> M E Y C) :
  pays p (still p P) (stop p) m -> R p 0%nat -> (forall a, match a with inl x => P x | inr _ => True end -> pays p Q R (f a)) ->
  pays p Q R (bind (catch m) f).
Proof.
  intros Hm HR Hf. eapply pays_bind.
  - eapply pays_imp; [apply pays_catch; exact Hm|intros a q k H; exact H|]. intros q k [-> ->]. exact HR.
  - intros [a|x] q k H.
    + destruct H as (-> & -> & Ha). apply Hf, Ha.
    + destruct H as [-> ->]. apply Hf. exact I.
Qed.

Lemma still_signature p f : pays p (still p (@any _)) (stop p) (signature_from_field r f).
Proof.
  assert (Hret : forall s : sig_indicator, pays p (still p (@any sig_indicator)) (stop p) (@ret E parser_err sig_indicator s)) by (intros; apply pays_ret; repeat split).
  unfold signature_from_field. eapply catch_bind; [apply still_husk|split; reflexivity|]. intros [hu|x] _; [|apply Hret].
  destruct (t_def (hu_ty hu)); try apply Hret.
  eapply catch_bind; [apply pays_resolve|split; reflexivity|]. intros [t|x] _; [|apply Hret].
  destruct (t_def t) as [| | | | |[| | |[]| | |] | |]; try apply Hret.
  destruct (f_type_name f); [|apply Hret].
  repeat match goal with |- pays _ _ _ (if ?c then _ else _) => destruct c end; apply Hret.
Qed.

Lemma pays_pick p vs a : pays p (fun _ q k => q = p /\ k = 1%nat) (fun q k => q = p /\ k = 1%nat) (pick_variant b vs a).
Proof.
  unfold pick_variant. eapply pays_bind; [apply pays_byte|]. intros x q k [-> ->].
  destruct (find_variant vs x); [apply pays_ret|apply pays_fail]; auto.
Qed.

Lemma ident_last path a : path_ident path = Some a -> last path ""%string = a.
Proof.
  unfold path_ident. induction path as [|x [|y path] IH]; intros H.
  - discriminate H.
  - injection H as ->. reflexivity.
  - exact (IH H).
Qed.
Lemma named_empty t a : inhabited_items t -> path_ident (t_path t) = Some a -> In a item_names -> t_def t <> TVariant [].
Proof. intros Ht Ha Hin H. apply (Ht H). rewrite (ident_last _ _ Ha). exact Hin. Qed.
Lemma item_not_empty t : inhabited_items t -> forall i, hinted_from_type t = HtPalletSpecific i -> t_def t <> TVariant [].
Proof.
  intros Ht i H. unfold hinted_from_type in H. destruct (path_ident (t_path t)) as [a|] eqn:Ha; [|discriminate H].
  apply (named_empty t a Ht Ha). clear Ha Ht.
  destruct (String.eqb a "AccountId32"); [discriminate H|].
  destruct (str_in a CALL) eqn:Hc.
  { unfold str_in, CALL in Hc. cbn [existsb] in Hc. unfold item_names.
    destruct (String.eqb_spec a "Call") as [Hq|Hq]; [subst a; left; reflexivity|].
    destruct (String.eqb_spec a "RuntimeCall") as [Hq1|Hq1]; [subst a; right; left; reflexivity|discriminate Hc]. }
  destruct (String.eqb a "Era"); [discriminate H|].
  destruct (str_in a EVENT) eqn:He.
  { unfold str_in, EVENT in He. cbn [existsb] in He. unfold item_names.
    destruct (String.eqb_spec a "Event") as [Hq1|Hq1]; [subst a; right; right; left; reflexivity|].
    destruct (String.eqb_spec a "RuntimeEvent") as [Hq2|Hq2]; [subst a; do 3 right; left; reflexivity|discriminate He]. }
  repeat match type of H with (if ?c then _ else _) = _ => destruct c; try discriminate H end; discriminate H.
Qed.
Lemma sig_not_empty t : inhabited_items t -> hinted_from_type t = HtMultiSignature -> t_def t <> TVariant [].
Proof.
  intros Ht H. unfold hinted_from_type in H. destruct (path_ident (t_path t)) as [a|] eqn:Ha; [|discriminate H].
  apply (named_empty t a Ht Ha). clear Ha Ht.
  destruct (String.eqb_spec a "MultiSignature") as [Hq2|Hq2]; [subst a; do 4 right; left; reflexivity|].
  repeat match type of H with (if ?c then _ else _) = _ => destruct c; try discriminate H end; discriminate H.
Qed.

(** What was looked at in front is an index of an enum with variants. *)
Definition peeked (p : nat) (t : ty) (x : checked) (q k : nat) : Prop :=
  (q = S p /\ k = 1%nat /\ x <> CNone) \/ (q = p /\ k = 0%nat) \/
  (q = p /\ k = 1%nat /\ x = CNone /\ exists v vs, t_def t = TVariant (v :: vs)).
Definition glanced (p q k : nat) : Prop := q = p /\ (k <= 1)%nat.

Lemma pays_checked p t : inhabited_items t -> pays p (peeked p t) (glanced p) (checked_from_type b r t).
Proof.
  intros Ht. unfold checked_from_type. pose proof (item_not_empty t Ht) as H1. pose proof (sig_not_empty t Ht) as H2.
  assert (Hnone : forall x, pays p (peeked p t) (glanced p) (@ret E parser_err _ x)).
  { intros x. apply pays_ret. right. left. auto. }
  destruct (hinted_from_type t) as [| | | | |item| |]; try apply Hnone.
  - specialize (H2 eq_refl). destruct (t_def t) as [|vs| | | | | |] eqn:Hd; try apply Hnone.
    destruct vs as [|v0 vs]; [congruence|].
    assert (Hp : exists v vs', t_def t = TVariant (v :: vs')) by eauto.
    apply pays_get. eapply pays_bind.
    { eapply pays_imp; [apply pays_catch, pays_pick|intros a q k H; exact H|]. intros q k [-> ->]. split; lia. }
    intros [v|x] q k [-> ->].
    2: { apply pays_ret. right. right. auto. }
    destruct (v_fields v) as [|f [|]]; try (apply pays_ret; right; right; auto).
    eapply still_bind; [apply still_signature|split; lia|]. intros s _.
    destruct s; [apply pays_ret; right; right; auto|..].
    all: apply pays_set, pays_ret; left; unfold ENUM_INDEX_ENCODED_LEN; repeat split; try lia; discriminate.
  - specialize (H1 item eq_refl). destruct (t_def t) as [|vs| | | | | |] eqn:Hd; try apply Hnone.
    destruct vs as [|v0 vs]; [congruence|].
    assert (Hp : exists v vs', t_def t = TVariant (v :: vs')) by eauto.
    apply pays_get. eapply pays_bind.
    { eapply pays_imp; [apply pays_catch, pays_pick|intros a q k H; exact H|]. intros q k [-> ->]. split; lia. }
    assert (Hpeek : pays p (fun c q' k' => peeked p t c q' (1 + k')) (fun q' k' => glanced p q' (1 + k')) (@ret E parser_err _ CNone)).
    { apply pays_ret. right. right. auto. }
    intros [v|x] q k [-> ->]; [|exact Hpeek].
    destruct (v_fields v) as [|f [|]]; try exact Hpeek.
    eapply catch_bind; [apply pays_resolve|split; lia|]. intros [t2|x] _; [|exact Hpeek].
    destruct (hinted_from_type t2); try exact Hpeek. destruct (pitem_eqb _ _); [|exact Hpeek].
    destruct (t_def t2); try exact Hpeek.
    apply pays_set, pays_ret. left. unfold ENUM_INDEX_ENCODED_LEN. repeat split; try lia; discriminate.
Qed.

(** *** The decoder *)

Definition input_inhabited (i : ty_input) : Prop := match i with Resolved t _ => inhabited_items t | Symbol _ => True end.

Section Step.
Variable dec : ty_input -> propagated -> M E parser_err (ext pdata).
Hypothesis Hdec : forall p i P, input_inhabited i -> pays p (fair p) (late p) (dec i P).

Lemma fair_fields_loop fs c : forall p, pays p (fair p) (late p) (fields_loop dec fs c).
Proof.
  induction fs as [|f fs IH]; intros p; cbn [fields_loop]; [fret|].
  eapply still_bind; [apply pays_lift_p|apply late_start|]. intros P _.
  apply fair_bind; [apply Hdec; exact I|]. intros d q _.
  apply fair_bind; [apply IH|intros; fret].
Qed.
Lemma fair_fields p fs c : pays p (fair p) (late p) (decode_fields dec fs c).
Proof.
  unfold decode_fields. destruct fs as [|f [|f2 fs]]; try apply fair_fields_loop.
  eapply still_bind; [apply pays_reject|apply late_start|]. intros _ _. apply fair_fields_loop.
Qed.
(** Reading the index twice is paid as well. *)
Lemma fair_variant p vs : pays p (fun _ q k => (p <= q /\ S k <= 2 * (q - p))%nat)
  (fun q k => (p <= q /\ S k <= 2 * (q - p) + 19)%nat) (decode_variant b dec vs).
Proof.
  unfold decode_variant. apply pays_get. eapply pays_bind.
  { eapply pays_imp; [apply pays_pick|intros a q k H; exact H|]. intros q k [-> ->]. split; lia. }
  intros v q k [-> ->]. apply pays_set. unfold ENUM_INDEX_ENCODED_LEN. eapply pays_bind.
  { eapply pays_imp; [apply fair_fields|intros a q k H; exact H|]. intros q k [H1 H2]. split; lia. }
  intros fs q k [H1 H2]. apply pays_ret. split; lia.
Qed.
Lemma fair_elements_loop n hu : inhabited_items (hu_ty hu) -> forall p, pays p (fair p) (late p) (elements_loop dec n hu).
Proof.
  intros Hh. induction n as [|n IH]; intros p; cbn [elements_loop]; [fret|].
  apply fair_bind; [apply Hdec; exact Hh|]. intros d q _. apply fair_bind; [apply IH|intros; fret].
Qed.
Lemma fair_elements p el n P : pays p (fair p) (late p) (decode_elements_set r dec el n P).
Proof.
  unfold decode_elements_set. eapply still_bind; [apply pays_reject|apply late_start|]. intros _ _.
  eapply still_bind; [apply pays_map_err, still_husk|apply late_start|]. intros hu Hh.
  destruct (n =? 0)%N; [fret|]. apply fair_bind; [apply fair_elements_loop, Hh|intros; fret].
Qed.
Lemma fair_tuple_loop ids c : forall p, pays p (fair p) (late p) (tuple_loop r dec ids c).
Proof.
  induction ids as [|id ids IH]; intros p; cbn [tuple_loop]; [fret|].
  eapply still_bind; [apply pays_map_err, pays_resolve|apply late_start|]. intros t Ht.
  eapply still_bind; [apply pays_lift_p|apply late_start|]. intros P _.
  apply fair_bind; [apply Hdec; exact Ht|]. intros d q _. apply fair_bind; [apply IH|intros; fret].
Qed.

Lemma fair_enum p v vs P id t : t_def t = TVariant (v :: vs) ->
  pays p (fun _ q k => (p <= q /\ S k <= 2 * (q - p))%nat) (fun q k => (p <= q /\ S k <= 2 * (q - p) + 19)%nat) (decode_plain b r dec t id P).
Proof.
  intros Hd. unfold decode_plain. rewrite Hd. eapply still_bind; [apply pays_reject|split; lia|]. intros _ _.
  eapply pays_bind; [apply fair_variant|]. intros x q k [H1 H2]. apply pays_ret. split; lia.
Qed.

Lemma fair_plain p t id P : pays p (fair p) (late p) (decode_plain b r dec t id P).
Proof.
  destruct (t_def t) as [fs|vs|el|len el|ids|x|inner|store order] eqn:Hd.
  2: { destruct vs as [|v vs].
       - unfold decode_plain. rewrite Hd. eapply still_bind; [apply pays_reject|apply late_start|]. intros _ _. fret.
       - eapply pays_imp; [eapply fair_enum; exact Hd| |]; [intros a q k [H1 H2]|intros q k [H1 H2]]; split; lia. }
  all: unfold decode_plain; rewrite Hd.
  - apply fair_bind; [apply fair_fields|intros; fret].
  - apply fair_bind; [apply fair_get_compact|]. intros n q _. apply fair_elements.
  - apply fair_elements.
  - assert (Hl : forall c, pays p (fair p) (late p) (do l <- tuple_loop r dec ids c; ret (Ext (DTuple l) (info_of P)))).
    { intros c. apply fair_bind; [apply fair_tuple_loop|intros; fret]. }
    destruct ids as [|i [|i2 ids]]; try apply Hl.
    eapply still_bind; [apply pays_reject|apply late_start|]. intros _ _. apply Hl.
  - apply fair_bind; [apply fair_primitive|intros; fret].
  - eapply still_bind; [apply pays_reject|apply late_start|]. intros _ _.
    eapply still_bind; [apply pays_lift_p|apply late_start|]. intros c _. apply Hdec. exact I.
  - eapply still_bind; [apply pays_reject|apply late_start|]. intros _ _.
    apply fair_bind; [apply fair_bits|intros; fret].
Qed.

Lemma fair_checked p k t id P : pays p (fair p) (late p) (decode_checked b r dec k t id P).
Proof.
  destruct k; cbn [decode_checked].
  - apply fair_plain.
  - apply fair_bind; [apply fair_fixed|intros; fret].
  - eapply still_bind; [apply pays_reject|apply late_start|]. intros _ _. apply fair_bind; [apply fair_era|intros; fret].
  - eapply still_bind; [apply pays_reject|apply late_start|]. intros _ _. apply fair_bind; [apply fair_h256|intros; fret].
  - eapply still_bind; [apply pays_reject|apply late_start|]. intros _ _. apply fair_bind; [|intros; fret].
    eapply pays_imp; [apply fair_variant| |]; [intros a q k [H1 H2]|intros q k [H1 H2]]; split; lia.
  - apply fair_bind; [apply fair_per|intros; fret].
Qed.

Lemma fair_body p i P : input_inhabited i -> pays p (fair p) (late p) (decode_body b r dec i P).
Proof.
  intros Hi. unfold decode_body. eapply still_bind with (P := fun x => inhabited_items (fst x)).
  { destruct i as [t id|id].
    - apply pays_ret. split; [reflexivity|]. split; [reflexivity|exact Hi].
    - eapply still_bind; [apply pays_map_err, pays_resolve|split; reflexivity|]. intros t Ht. apply pays_ret. repeat split. exact Ht. }
  { apply late_start. }
  intros [t id] Ht. cbn [fst] in Ht. cbv zeta. eapply pays_bind.
  { eapply pays_imp; [apply pays_checked, Ht|intros a q k H; exact H|]. intros q k [-> H]. split; lia. }
  intros c q k H. destruct H as [(-> & -> & Hc)|[(-> & ->)|(-> & -> & -> & v & vs & Hd)]].
  - eapply pays_imp; [apply fair_checked| |]; [intros a q k [H1 H2]|intros q k [H1 H2]]; split; lia.
  - apply fair_checked.
  - cbn [decode_checked]. eapply pays_imp; [eapply fair_enum; exact Hd| |]; [intros a q k [H1 H2]|intros q k [H1 H2]]; split; lia.
Qed.
End Step.

Lemma fair_decode fuel : forall p i P, input_inhabited i -> pays p (fair p) (late p) (decode b r fuel i P).
Proof.
  induction fuel as [|fuel IH]; intros p i P Hi; cbn [decode]; [apply pays_fuel, late_start|]. apply fair_body; [exact IH|exact Hi].
Qed.
Lemma fair_type p i P : input_inhabited i -> pays p (fair p) (late p) (decode_with_type b r i P).
Proof. apply fair_decode. Qed.
Lemma fair_at p id : pays p (fair p) (late p) (decode_as_type_at_position b r id).
Proof. apply fair_type. exact I. Qed.
Lemma fair_all p id : pays p (fair 0) (late 0) (decode_all_body b r id).
Proof.
  unfold decode_all_body. apply pays_set. apply fair_bind; [apply fair_at|]. intros out q _. apply pays_get.
  destruct (Nat.eqb _ _); [fret|ffail].
Qed.
End Source.
End Reads.
