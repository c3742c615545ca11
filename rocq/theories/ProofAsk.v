(** What the parser asks the memory for: requests start inside the data (or at the start position
    given by the user) and are shorter than 2^32 bytes or end inside the data. Two memories giving
    the same answers to such requests give the same runs (C64). *)
From Coq Require Import Lia ZifyBool ZifyNat ZifyN.
From Verif Require Import Base Compact Types Indicators Decode Sign Unchecked Storage Spec SpecSource ProofBase ProofCompact
  SpecWord.
Local Open Scope list_scope.

Lemma usize_small w : (N.of_nat (usize w) < 4294967296)%N.
Proof. destruct w; reflexivity. Qed.
Lemma fixed_small k : (fixed_len k < 4294967296)%N.
Proof. destruct k; reflexivity. Qed.
Lemma fits_u32 n : fits U32 n = true -> (n < 4294967296)%N.
Proof. intros H. apply fits_spec in H. unfold umax in H. cbn [usize] in H. change (256 ^ N.of_nat 4)%N with 4294967296%N in H. lia. Qed.

Lemma ceil_div_le a m : (m <> 0)%N -> (ceil_div a m * m <= a + m)%N.
Proof.
  intros Hm. unfold ceil_div. pose proof (N.div_mod a m Hm). pose proof (N.mod_lt a m Hm).
  destruct (a mod m =? 0)%N; rewrite ?N.mul_add_distr_r; nia.
Qed.

Lemma bitvec_small n bits : (n = 1 \/ n = 2 \/ n = 4 \/ n = 8 \/ n = 16)%N -> (bits < 4294967296)%N ->
  (bitvec_elements n bits * n < 4294967000)%N.
Proof.
  intros Hn Hb. unfold bitvec_elements.
  pose proof (ceil_div_le bits 8 ltac:(lia)). pose proof (ceil_div_le (ceil_div bits 8) n ltac:(lia)).
  generalize dependent (ceil_div (ceil_div bits 8) n). generalize dependent (ceil_div bits 8). intros. nia.
Qed.

Lemma asked_short B a n : (a <= B)%nat -> (n < 4294967296)%N -> asked B a n.
Proof. unfold asked. auto. Qed.

Section Ask.
Context {E : Type}.
Variable B : nat.

(** Both runs are the same run, and it keeps to the data. *)
Definition same {X A} (p : nat) (Q : A -> nat -> Prop) (m1 m2 : M E X A) : Prop :=
  (p <= B)%nat -> forall e, m1 p e = m2 p e /\
    let '(o, q, _) := m1 p e in (q <= B)%nat /\ match o with Ok a => Q a q | _ => True end.

Definition one {A} (_ : A) (_ : nat) : Prop := True.

Lemma same_bind {X A C} p (Q : A -> nat -> Prop) (Q2 : C -> nat -> Prop) (m1 m2 : M E X A) f1 f2 :
  same p Q m1 m2 -> (forall a q, (q <= B)%nat -> Q a q -> same q Q2 (f1 a) (f2 a)) ->
  same p Q2 (bind m1 f1) (bind m2 f2).
Proof.
  intros Hm Hf Hp e. specialize (Hm Hp e). unfold bind. destruct Hm as [<- Hm].
  destruct (m1 p e) as [[[a|x| |] q] e']; try (split; [reflexivity|tauto]).
  destruct Hm as [Hq Ha]. exact (Hf a q Hq Ha Hq e').
Qed.
Lemma same_ret {X A} p (Q : A -> nat -> Prop) (a : A) : Q a p -> @same X A p Q (ret a) (ret a).
Proof. intros H Hp e. cbn. auto. Qed.
Lemma same_fail {X A} p (Q : A -> nat -> Prop) (x : X) : @same X A p Q (fail x) (fail x).
Proof. intros Hp e. cbn. auto. Qed.
Lemma same_panic {X A} p (Q : A -> nat -> Prop) : @same X A p Q panic panic.
Proof. intros Hp e. cbn. auto. Qed.
Lemma same_fuel {X A} p (Q : A -> nat -> Prop) : @same X A p Q out_of_fuel out_of_fuel.
Proof. intros Hp e. cbn. auto. Qed.
Lemma same_get {X} p : @same X nat p (fun a q => a = p /\ q = p) get_pos get_pos.
Proof. intros Hp e. cbn. auto. Qed.
Lemma same_set {X} p n : (n <= B)%nat -> @same X unit p (fun _ q => q = n) (set_pos n) (set_pos n).
Proof. intros H Hp e. cbn. auto. Qed.
Lemma same_map_err {X Y A} p (Q : A -> nat -> Prop) (g : X -> Y) m1 m2 :
  same p Q m1 m2 -> same p Q (map_err g m1) (map_err g m2).
Proof.
  intros H Hp e. specialize (H Hp e). unfold map_err. destruct H as [<- H].
  destruct (m1 p e) as [[[a|x| |] q] e']; auto.
Qed.
Lemma same_catch {X Y A} p (Q : A -> nat -> Prop) (m1 m2 : M E X A) : same p Q m1 m2 ->
  @same Y _ p (fun s q => match s with inl a => Q a q | inr _ => True end) (catch m1) (catch m2).
Proof.
  intros H Hp e. specialize (H Hp e). unfold catch. destruct H as [<- H].
  destruct (m1 p e) as [[[a|x| |] q] e']; auto.
Qed.
Lemma same_imp {X A} p (Q Q2 : A -> nat -> Prop) (m1 m2 : M E X A) :
  same p Q m1 m2 -> (forall a q, Q a q -> Q2 a q) -> same p Q2 m1 m2.
Proof.
  intros H HQ Hp e. specialize (H Hp e). destruct H as [<- H]. split; [reflexivity|].
  destruct (m1 p e) as [[[a|x| |] q] e']; intuition.
Qed.
Lemma same_any {X A} p (Q : A -> nat -> Prop) (m1 m2 : M E X A) : same p Q m1 m2 -> same p one m1 m2.
Proof. intros H. eapply same_imp; [exact H|]. intros; exact I. Qed.
(** A computation that does not read. *)
Lemma same_self {X A} p (m : M E X A) : (forall p e, snd (fst (m p e)) = p) -> same p (fun _ q => q = p) m m.
Proof.
  intros H Hp e. split; [reflexivity|]. specialize (H p e). destruct (m p e) as [[o q] e']. cbn [fst snd] in H. subst q.
  split; [exact Hp|]. destruct o; auto.
Qed.
Lemma same_lift {X A} p (x : A + X) : same p (fun _ q => q = p) (lift x) (lift x).
Proof. destruct x; [apply same_ret; reflexivity|apply same_fail]. Qed.
Lemma same_local {X A} p (Q : A -> nat -> Prop) p0 (m1 m2 : M E X A) : (p0 <= B)%nat -> same p0 Q m1 m2 ->
  same p (fun x q => q = p /\ Q (fst x) (snd x) /\ (snd x <= B)%nat) (at_local p0 m1) (at_local p0 m2).
Proof.
  intros H0 H Hp e. specialize (H H0 e). unfold at_local. destruct H as [<- H].
  destruct (m1 p0 e) as [[[a|x| |] q] e']; split; auto; cbn [fst snd]; intuition.
Qed.
Lemma same_lift_int {A} p (x : A + int_err) : same p (fun _ q => q = p) (lift_int x) (lift_int x).
Proof. apply same_map_err, same_lift. Qed.
Lemma same_lift_p {A} p (x : A + int_err) : same p (fun _ q => q = p) (lift_p x) (lift_p x).
Proof. apply same_map_err, same_lift. Qed.
Lemma same_reject p c : same p (fun _ q => q = p) (reject_compact_m c) (reject_compact_m c).
Proof. apply same_map_err, same_lift. Qed.

Ltac sret := apply same_ret; exact I.

Section Source.
Variable r : registry E.
Variable b1 b2 : buffer E.
Hypothesis Hlen : total_len b2 = total_len b1.
Hypothesis HB : (total_len b1 <= B)%nat.
Hypothesis Hgood : good_buffer b1.
Hypothesis Hbytes : gives_bytes b1.
Hypothesis Hrd : forall p n e, asked B p n -> rd b1 p n e = rd b2 p n e.

Lemma same_resolve p id : same p (fun _ q => q = p) (resolve_ty r id) (resolve_ty r id).
Proof. apply same_self. intros q e. unfold resolve_ty. destruct (resolve r id e) as [[t|x] e']; reflexivity. Qed.

(** *** Reads *)

Lemma same_slice p a n : asked B a n ->
  same p (fun l q => q = p /\ is_bytes l /\ N.of_nat (List.length l) = n /\ (a + N.to_nat n <= B)%nat)
    (read_slice b1 a n) (read_slice b2 a n).
Proof.
  intros Ha Hp e. unfold read_slice. rewrite <- (Hrd a n e Ha). split; [reflexivity|].
  destruct (rd b1 a n e) as [[l|x] e'] eqn:H; auto. pose proof (Hbytes _ _ _ _ _ H). apply Hgood in H.
  split; [exact Hp|]. repeat split; auto; lia.
Qed.

Lemma same_byte p a : (a <= B)%nat ->
  same p (fun _ q => q = p /\ (a + 1 <= B)%nat) (read_byte b1 a) (read_byte b2 a).
Proof.
  intros H. unfold read_byte. eapply same_bind; [apply same_slice, asked_short; [exact H|reflexivity]|].
  intros l q _ (-> & _ & _ & Hl). destruct l as [|x [|]]; try apply same_panic. apply same_ret. split; [reflexivity|lia].
Qed.

Lemma same_find_loop w a n p : (a <= B)%nat -> forall i, (a + i + n <= B)%nat ->
  same p (fun x q => q = p /\ match x with Some (v, s) => fits w v = true /\ (a < s <= B)%nat /\ (s <= a + 18)%nat | None => True end)
    (find_loop w b1 a n i) (find_loop w b2 a n i).
Proof.
  intros Ha. induction n as [|n IH]; intros i Hi; cbn [find_loop]; [apply same_ret; auto|].
  destruct (_ <? _)%nat eqn:Hm; [apply same_ret; auto|]. unfold MAX_COMPACT_LEN in Hm.
  eapply same_bind; [apply same_slice, asked_short; [exact Ha|lia]|]. intros l q Hq (-> & Hl & _ & _).
  destruct (compact_decode w l) eqn:Hc.
  - apply same_ret. split; [reflexivity|]. split; [|lia]. apply (compact_decode_inv w l n0 Hl Hc).
  - apply IH. lia.
Qed.

Lemma same_find_compact w a p : (a <= B)%nat ->
  same p (fun x q => q = p /\ fits w (fst x) = true /\ (a < snd x <= B)%nat /\ (snd x <= a + 18)%nat)
    (find_compact w b1 a) (find_compact w b2 a).
Proof.
  intros Ha. unfold find_compact. rewrite Hlen. destruct (_ <? _)%nat eqn:H; [apply same_fail|].
  eapply same_bind; [apply same_find_loop; lia|]. intros [[v s]|] q _ [-> Hx]; [|apply same_fail].
  apply same_ret. cbn [fst snd]. auto.
Qed.

Lemma same_get_compact w p :
  same p (fun x q => fits w x = true /\ (p < q <= B)%nat) (get_compact w b1) (get_compact w b2).
Proof.
  unfold get_compact. eapply same_bind; [apply same_get|]. intros a q Hq [-> ->].
  eapply same_bind; [apply same_find_compact, Hq|]. intros x q _ (-> & H1 & H2 & _).
  eapply same_bind; [apply same_set; lia|]. intros _ q _ ->. apply same_ret. auto.
Qed.

Lemma same_exact p n : (n < 4294967296)%N ->
  same p (fun l q => q = p /\ (p + N.to_nat n <= B)%nat) (read_exact b1 n) (read_exact b2 n).
Proof.
  intros Hn. unfold read_exact. eapply same_bind; [apply same_get|]. intros a q Hq [-> ->].
  eapply same_bind; [apply same_slice, asked_short; [exact Hq|exact Hn]|]. intros l q _ (-> & _ & Hl & H).
  rewrite Hl, N.eqb_refl. apply same_ret. auto.
Qed.

Lemma same_cut {A} p n name (f : bytes -> option A) : (n < 4294967296)%N ->
  same p one (cut_and_decode b1 n name f) (cut_and_decode b2 n name f).
Proof.
  intros Hn. unfold cut_and_decode. eapply same_bind; [apply same_get|]. intros a q Hq [-> ->].
  eapply same_bind; [apply same_exact, Hn|]. intros l q _ [-> H]. destruct (f l); [|apply same_fail].
  unfold shift_pos. eapply same_bind; [|intros; sret].
  eapply same_bind; [apply same_get|]. intros a' q _ [-> ->]. eapply same_any, same_set. lia.
Qed.

Lemma same_block {A} p c (m1 m2 : M E parser_err A) Q : same p Q m1 m2 -> same p Q (block_compact c m1) (block_compact c m2).
Proof. intros H. unfold block_compact. destruct (compact_at c); [apply same_fail|exact H]. Qed.

Lemma same_str p h : same p one (decode_str b1 h) (decode_str b2 h).
Proof.
  unfold decode_str. eapply same_bind; [apply same_get|]. intros a q Hq [-> ->].
  eapply same_bind; [apply same_find_compact, Hq|]. intros [v s] q _ (-> & H1 & H2 & _). cbn [fst snd] in *.
  eapply same_bind; [apply same_slice, asked_short; [lia|apply fits_u32, H1]|]. intros l q _ (-> & _ & _ & Hl).
  destruct (utf8_valid l); [|apply same_fail].
  eapply same_bind; [apply same_set, Hl|]. intros; sret.
Qed.

Lemma same_uint p w c : same p one (parse_uint b1 w c) (parse_uint b2 w c).
Proof.
  unfold parse_uint. eapply same_bind with (Q := one); [|intros; sret].
  destruct (compact_at c); [eapply same_any, same_get_compact|apply same_cut, usize_small].
Qed.

Lemma same_primitive p x c : same p one (decode_primitive b1 x c) (decode_primitive b2 x c).
Proof.
  destruct x; cbn [decode_primitive].
  3: { eapply same_bind; [apply same_reject|]. intros _ q _ _. apply same_str. }
  3: apply same_uint.
  all: apply same_block; (eapply same_bind; [apply same_cut|intros; sret]); try reflexivity; apply usize_small.
Qed.

Lemma same_per p x c : same p one (parse_per b1 x c) (parse_per b2 x c).
Proof.
  unfold parse_per. eapply same_bind with (Q := one); [|intros; sret].
  destruct (compact_at c); [|apply same_cut, usize_small]. eapply same_bind; [apply same_get_compact|]. intros; sret.
Qed.

Lemma same_fixed p x c : same p one (parse_fixed b1 x c) (parse_fixed b2 x c).
Proof. apply same_block. eapply same_bind; [apply same_cut, fixed_small|intros; sret]. Qed.

Lemma same_h256 p s : same p one (special_case_h256 b1 s) (special_case_h256 b2 s).
Proof. unfold special_case_h256. eapply same_bind; [apply same_cut; reflexivity|intros; sret]. Qed.

Lemma same_era p : same p one (special_case_era b1) (special_case_era b2).
Proof.
  unfold special_case_era. eapply same_bind; [apply same_get|]. intros a q Hq [-> ->].
  eapply same_bind; [apply same_slice, asked_short; [exact Hq|reflexivity]|]. intros l q _ (-> & _ & _ & Hl).
  destruct (era_decode_all l).
  - eapply same_bind; [apply same_set; lia|]. intros; sret.
  - eapply same_bind; [apply same_slice, asked_short; [exact Hq|reflexivity]|]. intros l2 q _ (-> & _ & _ & Hl2).
    destruct (era_decode_all l2); [|apply same_fail].
    eapply same_bind; [apply same_set; lia|]. intros; sret.
Qed.

Lemma same_bitvec p w : same p one (into_bitvec_decode b1 (N.of_nat (usize w))) (into_bitvec_decode b2 (N.of_nat (usize w))).
Proof.
  unfold into_bitvec_decode. eapply same_bind; [apply same_get|]. intros a q Hq [-> ->].
  eapply same_bind with (Q := fun x q => q = p /\ (snd x < 4294967296)%N).
  { unfold bitvec_positions. eapply same_bind; [apply same_find_compact, Hq|].
    intros [v s] q _ (-> & H1 & H2 & H3). cbn [fst snd] in *. apply same_ret. split; [reflexivity|]. cbn [snd].
    assert (Hw : (bitvec_elements (N.of_nat (usize w)) v * N.of_nat (usize w) < 4294967000)%N).
    { apply bitvec_small; [destruct w; cbn; tauto|apply fits_u32, H1]. }
    lia. }
  intros [[? ?] x] q _ [-> Hx]. cbn [snd] in Hx.
  eapply same_bind; [apply same_slice, asked_short; [exact Hq|exact Hx]|]. intros l q _ (-> & _ & _ & Hl).
  eapply same_bind; [apply same_set, Hl|]. intros; sret.
Qed.

Lemma same_bit_order p order id : same p one (find_bit_order_ty r order id) (find_bit_order_ty r order id).
Proof.
  unfold find_bit_order_ty. eapply same_bind; [apply same_resolve|]. intros t q _ _.
  destruct (t_def t); try apply same_fail.
  destruct (path_ident (t_path t)); [|apply same_fail].
  destruct (String.eqb _ _); [sret|]. destruct (String.eqb _ _); [sret|apply same_fail].
Qed.

Lemma same_bits p store order id : same p one (decode_bit_sequence b1 r store order id) (decode_bit_sequence b2 r store order id).
Proof.
  unfold decode_bit_sequence. eapply same_bind; [apply same_get|]. intros a q Hq [-> ->].
  eapply same_bind; [apply same_map_err, same_bit_order|]. intros o q _ _.
  eapply same_bind; [apply same_map_err, same_resolve|]. intros t q' _ _.
  destruct (t_def t); try apply same_fail.
  destruct p0 as [| | |w| | |]; try apply same_fail.
  destruct w; try apply same_fail.
  all: (eapply same_bind; [apply same_bitvec|]; intros l q2 _ _; destruct (bitvec_decode_all _ o l); [sret|apply same_fail]).
Qed.

Lemma same_husk_loop fuel : forall p t id c acc, same p one (husk_loop r fuel t id c acc) (husk_loop r fuel t id c acc).
Proof.
  induction fuel as [|fuel IH]; intros p t id c acc; cbn [husk_loop]; [apply same_fuel|].
  destruct (hinted_from_type t); try sret.
  destruct (t_def t) as [fs| | | | | |inner|]; try sret.
  - destruct fs as [|f [|]]; try sret.
    eapply same_bind; [apply same_lift_int|]. intros c1 q _ _.
    eapply same_bind; [apply same_resolve|]. intros t1 q' _ _. apply IH.
  - eapply same_bind; [apply same_lift_int|]. intros _ q _ _.
    eapply same_bind; [apply same_lift_int|]. intros c1 q' _ _.
    eapply same_bind; [apply same_resolve|]. intros t1 q2 _ _. apply IH.
Qed.

Lemma same_husk p id c : same p one (husk_type r id c) (husk_type r id c).
Proof.
  unfold husk_type. eapply same_bind; [apply same_lift_int|]. intros c1 q _ _.
  eapply same_bind; [apply same_resolve|]. intros t q' _ _. apply same_husk_loop.
Qed.

Lemma same_pick p vs a : (a <= B)%nat ->
  same p (fun _ q => q = p /\ (a + 1 <= B)%nat) (pick_variant b1 vs a) (pick_variant b2 vs a).
Proof.
  intros Ha. unfold pick_variant. eapply same_bind; [apply same_byte, Ha|]. intros x q _ [-> H].
  destruct (find_variant vs x); [apply same_ret; auto|apply same_fail].
Qed.

Lemma same_signature p f : same p one (signature_from_field r f) (signature_from_field r f).
Proof.
  unfold signature_from_field. eapply same_bind; [apply same_catch, same_husk|].
  intros [hu|x] q _ _; [|sret]. destruct (t_def (hu_ty hu)); try sret.
  eapply same_bind; [apply same_catch, same_resolve|]. intros [t|x] q' _ _; [|sret].
  destruct (t_def t) as [| | | | |[| | |[]| | |] | |]; try sret.
  destruct (f_type_name f); [|sret].
  repeat match goal with |- same _ _ (if ?c then _ else _) _ => destruct c end; sret.
Qed.

Lemma same_checked_type p t : same p one (checked_from_type b1 r t) (checked_from_type b2 r t).
Proof.
  unfold checked_from_type. destruct (hinted_from_type t); try sret.
  - destruct (t_def t); try sret. eapply same_bind; [apply same_get|]. intros a q Hq [-> ->].
    eapply same_bind; [apply same_catch, same_pick, Hq|]. intros [v|x] q _ Hv; [|sret]. destruct Hv as [-> Hv].
    destruct (v_fields v) as [|f [|]]; try sret.
    eapply same_bind; [apply same_signature|]. intros s q _ _. unfold ENUM_INDEX_ENCODED_LEN.
    destruct s; try sret; (eapply same_bind; [apply same_set; exact Hv|]; intros; sret).
  - destruct (t_def t); try sret. eapply same_bind; [apply same_get|]. intros a q Hq [-> ->].
    eapply same_bind; [apply same_catch, same_pick, Hq|]. intros [v|x] q _ Hv; [|sret]. destruct Hv as [-> Hv].
    destruct (v_fields v) as [|f [|]]; try sret.
    eapply same_bind; [apply same_catch, same_resolve|]. intros [t1|x] q _ _; [|sret].
    destruct (hinted_from_type t1); try sret. destruct (pitem_eqb i i0); [|sret].
    destruct (t_def t1); try sret. unfold ENUM_INDEX_ENCODED_LEN.
    eapply same_bind; [apply same_set; exact Hv|]. intros; sret.
Qed.

(** *** The decoder *)

Section Step.
Variable d1 d2 : ty_input -> propagated -> M E parser_err (ext pdata).
Hypothesis Hd : forall p i P, same p one (d1 i P) (d2 i P).

Lemma same_fields_loop fs c : forall p, same p one (fields_loop d1 fs c) (fields_loop d2 fs c).
Proof.
  induction fs as [|f fs IH]; intros p; cbn [fields_loop]; [sret|].
  eapply same_bind; [apply same_lift_p|]. intros P q _ _.
  eapply same_bind; [apply Hd|]. intros x q' _ _.
  eapply same_bind; [apply IH|]. intros; sret.
Qed.

Lemma same_fields p fs c : same p one (decode_fields d1 fs c) (decode_fields d2 fs c).
Proof.
  unfold decode_fields. destruct fs as [|f [|g fs]]; try apply same_fields_loop.
  eapply same_bind; [apply same_reject|]. intros _ q _ _. apply same_fields_loop.
Qed.

Lemma same_variant p vs : same p one (decode_variant b1 d1 vs) (decode_variant b2 d2 vs).
Proof.
  unfold decode_variant. eapply same_bind; [apply same_get|]. intros a q Hq [-> ->].
  eapply same_bind; [apply same_pick, Hq|]. intros v q _ [-> Hv]. unfold ENUM_INDEX_ENCODED_LEN.
  eapply same_bind; [apply same_set, Hv|]. intros _ q _ _.
  eapply same_bind; [apply same_fields|]. intros; sret.
Qed.

Lemma same_elements_loop n hu : forall p, same p one (elements_loop d1 n hu) (elements_loop d2 n hu).
Proof.
  induction n as [|n IH]; intros p; cbn [elements_loop]; [sret|].
  eapply same_bind; [apply Hd|]. intros x q _ _.
  eapply same_bind; [apply IH|]. intros; sret.
Qed.

Lemma same_elements p el n P : same p one (decode_elements_set r d1 el n P) (decode_elements_set r d2 el n P).
Proof.
  unfold decode_elements_set. eapply same_bind; [apply same_reject|]. intros _ q _ _.
  eapply same_bind; [apply same_map_err, same_husk|]. intros hu q' _ _.
  destruct (n =? 0)%N; [sret|].
  eapply same_bind; [apply same_elements_loop|]. intros; sret.
Qed.

Lemma same_tuple_loop ids c : forall p, same p one (tuple_loop r d1 ids c) (tuple_loop r d2 ids c).
Proof.
  induction ids as [|i ids IH]; intros p; cbn [tuple_loop]; [sret|].
  eapply same_bind; [apply same_map_err, same_resolve|]. intros t q _ _.
  eapply same_bind; [apply same_lift_p|]. intros P q' _ _.
  eapply same_bind; [apply Hd|]. intros x q2 _ _.
  eapply same_bind; [apply IH|]. intros; sret.
Qed.

Lemma same_plain p t id P : same p one (decode_plain b1 r d1 t id P) (decode_plain b2 r d2 t id P).
Proof.
  unfold decode_plain. destruct (t_def t) as [fs|vs|el|n el|ids|x|inner|s o].
  - eapply same_bind; [apply same_fields|]. intros; sret.
  - eapply same_bind; [apply same_reject|]. intros _ q _ _.
    destruct vs as [|v vs]; [sret|]. eapply same_bind; [apply same_variant|]. intros; sret.
  - eapply same_bind; [apply same_get_compact|]. intros n q _ _. apply same_elements.
  - apply same_elements.
  - destruct ids as [|i [|j ids]]; try (eapply same_bind; [apply same_tuple_loop|]; intros; sret).
    eapply same_bind; [apply same_reject|]. intros _ q _ _.
    eapply same_bind; [apply same_tuple_loop|]. intros; sret.
  - eapply same_bind; [apply same_primitive|]. intros; sret.
  - eapply same_bind; [apply same_reject|]. intros _ q _ _.
    eapply same_bind; [apply same_lift_p|]. intros c q' _ _. apply Hd.
  - eapply same_bind; [apply same_reject|]. intros _ q _ _.
    eapply same_bind; [apply same_bits|]. intros; sret.
Qed.

Lemma same_checked p k t id P : same p one (decode_checked b1 r d1 k t id P) (decode_checked b2 r d2 k t id P).
Proof.
  destruct k as [|f| | |n i vs it|f]; cbn [decode_checked].
  - apply same_plain.
  - eapply same_bind; [apply same_fixed|]. intros; sret.
  - eapply same_bind; [apply same_reject|]. intros _ q _ _. eapply same_bind; [apply same_era|]. intros; sret.
  - eapply same_bind; [apply same_reject|]. intros _ q _ _. eapply same_bind; [apply same_h256|]. intros; sret.
  - eapply same_bind; [apply same_reject|]. intros _ q _ _. eapply same_bind; [apply same_variant|]. intros; sret.
  - eapply same_bind; [apply same_per|]. intros; sret.
Qed.

Lemma same_body p i P : same p one (decode_body b1 r d1 i P) (decode_body b2 r d2 i P).
Proof.
  unfold decode_body. eapply same_bind with (Q := one).
  { destruct i as [t id|id]; [sret|]. eapply same_bind; [apply same_map_err, same_resolve|]. intros; sret. }
  intros [t id] q _ _. eapply same_bind; [apply same_checked_type|]. intros k q' _ _. apply same_checked.
Qed.
End Step.

Lemma same_decode fuel : forall p i P, same p one (decode b1 r fuel i P) (decode b2 r fuel i P).
Proof.
  induction fuel as [|fuel IH]; intros p i P; cbn [decode]; [apply same_fuel|]. apply same_body. exact IH.
Qed.

Lemma same_type p i P : same p one (decode_with_type b1 r i P) (decode_with_type b2 r i P).
Proof. unfold decode_with_type, decode_fuel. rewrite Hlen. apply same_decode. Qed.

Lemma same_at p id : same p one (decode_as_type_at_position b1 r id) (decode_as_type_at_position b2 r id).
Proof. apply same_type. Qed.

Lemma same_all p id : same p one (decode_all_body b1 r id) (decode_all_body b2 r id).
Proof.
  unfold decode_all_body. eapply same_bind; [apply same_set; lia|]. intros _ q _ _.
  eapply same_bind; [apply same_at|]. intros out q' _ _.
  eapply same_bind; [apply same_get|]. intros a q2 _ _. rewrite Hlen. destruct (Nat.eqb _ _); [sret|apply same_fail].
Qed.

Lemma same_all_m p id : same p one (decode_all_m b1 r id) (decode_all_m b2 r id).
Proof.
  unfold decode_all_m. eapply same_bind; [apply same_local; [lia|apply same_all]|]. intros; sret.
Qed.

(** *** Storage keys *)

Lemma same_cut_hash p len k id : (len < 4294967296)%N -> same p one (cut_hash len k id b1) (cut_hash len k id b2).
Proof.
  intros Hl. unfold cut_hash. eapply same_bind; [apply same_get|]. intros a q Hq [-> ->].
  eapply same_bind; [apply same_map_err, same_slice, asked_short; [exact Hq|exact Hl]|].
  intros l q _ (-> & _ & H1 & H2). rewrite H1, N.eqb_refl.
  eapply same_bind; [apply same_set, H2|]. intros; sret.
Qed.

Lemma same_check_hash p len h id : (len < 4294967296)%N -> same p one (check_hash len h id b1 r) (check_hash len h id b2 r).
Proof.
  intros Hl. unfold check_hash. eapply same_bind; [apply same_get|]. intros a q Hq [-> ->].
  eapply same_bind; [apply same_map_err, same_slice, asked_short; [exact Hq|exact Hl]|].
  intros l q _ (-> & _ & H1 & H2). rewrite H1, N.eqb_refl.
  eapply same_bind; [apply same_set, H2|]. intros _ q _ ->.
  eapply same_bind; [apply same_map_err, same_type|]. intros x q Hx _.
  eapply same_bind; [apply same_get|]. intros a q' _ [-> ->].
  eapply same_bind; [apply same_catch, same_slice|].
  { split; [exact H2|]. right. lia. }
  intros [content|y] q' _ _; [|apply same_panic].
  destruct (bytes_eqb l (h content)); [sret|apply same_fail].
Qed.

Lemma same_key_part p bl tw h id : same p one (key_part_decode bl tw h id b1 r) (key_part_decode bl tw h id b2 r).
Proof.
  destruct h; cbn [key_part_decode]; try (apply same_cut_hash; reflexivity); try (apply same_check_hash; reflexivity).
  eapply same_bind; [apply same_map_err, same_type|]. intros; sret.
Qed.

Lemma same_key_parts bl tw hs : forall ids p, same p one (key_parts bl tw hs ids b1 r) (key_parts bl tw hs ids b2 r).
Proof.
  induction hs as [|h hs IH]; intros [|id ids] p; cbn [key_parts]; try sret.
  eapply same_bind; [apply same_key_part|]. intros x q _ _.
  eapply same_bind; [apply IH|]. intros; sret.
Qed.

Lemma same_process p bl tw hs id p0 : (p0 <= B)%nat ->
  same p one (process_key_mapped bl tw hs id b1 p0 r) (process_key_mapped bl tw hs id b2 p0 r).
Proof.
  intros H0. unfold process_key_mapped. eapply same_bind; [apply (same_local p one); [exact H0|]|intros; sret].
  unfold process_key_body. eapply same_bind with (Q := one).
  - assert (Hmany : same p0 one
      (do t <- map_err (fun x => ParsingKey (PRegistry x)) (resolve_ty r id);
        match t_def t with
        | TTuple elems =>
            if Nat.eqb (List.length elems) (List.length hs) then
              do content <- key_parts bl tw hs elems b1 r;
              ret (KTuple content (info_from_ty t))
            else fail MultipleHashesNumberMismatch
        | _ => fail MultipleHashesNotATuple
        end)
      (do t <- map_err (fun x => ParsingKey (PRegistry x)) (resolve_ty r id);
        match t_def t with
        | TTuple elems =>
            if Nat.eqb (List.length elems) (List.length hs) then
              do content <- key_parts bl tw hs elems b2 r;
              ret (KTuple content (info_from_ty t))
            else fail MultipleHashesNumberMismatch
        | _ => fail MultipleHashesNotATuple
        end)).
    { eapply same_bind; [apply same_map_err, same_resolve|]. intros t q _ _.
      destruct (t_def t); try apply same_fail.
      destruct (Nat.eqb _ _); [|apply same_fail].
      eapply same_bind; [apply same_key_parts|]. intros; sret. }
    destruct hs as [|h [|h2 hs]]; try exact Hmany.
    eapply same_bind; [apply same_key_part|]. intros; sret.
  - intros k q _ _. eapply same_bind; [apply same_get|]. intros a q' _ _. rewrite Hlen.
    destruct (Nat.eqb _ _); [sret|apply same_fail].
Qed.
End Source.
End Ask.
