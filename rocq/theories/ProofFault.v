(** The decoder's error is the first fault (C62). *)
From Coq Require Import Lia ZifyBool ZifyNat ZifyN Relations.
From Verif Require Import Base Compact Types Indicators Decode Spec SpecReach SpecKinds SpecHusk SpecBlame SpecFault ProofBase ProofCompact ProofTables ProofPeel ProofUtf8 ProofLeaf ProofRead ProofSpec ProofRel ProofHusk ProofMain ProofBlame Api.
Local Open Scope string_scope.
Local Open Scope list_scope.

Lemma stands_has data l p : stands data l p <-> has data p l /\ (p <= List.length data)%nat.
Proof.
  unfold stands. split.
  - intros (a & z & -> & <-). split; [apply has_mid|]. rewrite app_length. lia.
  - intros [H Hp]. exists (firstn p data), (skipn (p + List.length l) data). split; [|apply firstn_length_le, Hp].
    pose proof (has_le _ _ _ H Hp) as Hle. unfold has in H. rewrite <- H at 1. unfold slice.
    rewrite <- (firstn_skipn p data) at 1. f_equal. rewrite <- (firstn_skipn (List.length l) (skipn p data)) at 1. f_equal.
    rewrite skipn_skipn. f_equal. lia.
Qed.

Lemma begins_def t d cpt : def_of t = Some d -> begins t cpt =
  match d, cpt with
  | TPrimitive (PrU w), true => Some w
  | TPrimitive PrStr, false | TSequence _, _ | TBitSequence _ _, false => Some U32
  | _, _ => None
  end.
Proof.
  intros Hd. unfold begins. assert (Hp : forall k, classify t <> SpPer k) by (intros k; exact (def_not_per _ _ k Hd)).
  rewrite Hd. destruct (classify t); try (destruct (Hp k eq_refl)); destruct d as [| | | | |x| |]; try reflexivity; destruct x; reflexivity.
Qed.

Section Fault.
Variable types : list ty.
Variable data : bytes.
Hypothesis Hbytes : is_bytes data.
Context {E : Type}.
Local Notation L := (List.length data).
Local Notation b := (@slice_buffer E data).
Local Notation r := (@portable E types).
Local Notation fault := (fault types data).
Local Notation stands := (stands data).
Local Notation lacks := (lacks data).

(** Triples: [F] is what errors say, apart from errors about the registry. *)
Definition tri {A} (Q : A -> nat -> Prop) (F : parser_err -> Prop) (p : nat) (m : M E parser_err A) : Prop := (p <= L)%nat -> forall e,
  match m p e with
  | (Ok a, q, _) => (q <= L)%nat /\ Q a q
  | (Err (PRegistry _), _, _) => True
  | (Err x, _, _) => F x
  | _ => True
  end.

Definition any {A} (a : A) (q : nat) : Prop := True.

Lemma tri_bind {A B} (Q : A -> nat -> Prop) (R : B -> nat -> Prop) (F : parser_err -> Prop) p (m : M E parser_err A) (f : A -> M E parser_err B) :
  tri Q F p m -> (forall a q, Q a q -> (q <= L)%nat -> tri R F q (f a)) -> tri R F p (bind m f).
Proof.
  intros Hm Hf Hp e. specialize (Hm Hp e). unfold bind. destruct (m p e) as [[[a|x| |] q] e1]; try exact I; [|exact Hm].
  destruct Hm as [H1 H2]. exact (Hf a q H2 H1 H1 e1).
Qed.

Lemma tri_weak {A} (Q R : A -> nat -> Prop) (F G : parser_err -> Prop) p (m : M E parser_err A) :
  tri Q F p m -> (forall a q, Q a q -> R a q) -> (forall x, F x -> G x) -> tri R G p m.
Proof.
  intros H HQ HF Hp e. specialize (H Hp e). destruct (m p e) as [[[a|x| |] q] e1]; auto.
  - destruct H; auto.
  - destruct x; auto.
Qed.

Lemma tri_le {A} (Q : A -> nat -> Prop) (F : parser_err -> Prop) p (m : M E parser_err A) : ((p <= L)%nat -> tri Q F p m) -> tri Q F p m.
Proof. intros H Hp. exact (H Hp Hp). Qed.

Lemma tri_then {A B} (Q : A -> nat -> Prop) (R : B -> nat -> Prop) (F H : parser_err -> Prop) p (m : M E parser_err A) (f : A -> M E parser_err B) :
  tri Q F p m -> (forall x, F x -> H x) -> (forall a q, Q a q -> (q <= L)%nat -> exists G, tri R G q (f a) /\ forall x, G x -> H x) -> tri R H p (bind m f).
Proof.
  intros Hm HF Hf. apply tri_bind with (Q := Q); [eapply tri_weak; eauto|]. intros a q Hq Hl. destruct (Hf a q Hq Hl) as (G0 & H1 & H2).
  eapply tri_weak; eauto.
Qed.

Lemma tri_get {A} (Q : A -> nat -> Prop) (F : parser_err -> Prop) p (f : nat -> M E parser_err A) : tri Q F p (f p) -> tri Q F p (bind get_pos f).
Proof. intros H. exact H. Qed.

Lemma tri_set {A} (Q : A -> nat -> Prop) (F : parser_err -> Prop) p q (m : M E parser_err A) : (q <= L)%nat -> tri Q F q m -> tri Q F p (set_pos q ;; m).
Proof. intros Hq H Hp e. exact (H Hq e). Qed.

Lemma tri_ret {A} (Q : A -> nat -> Prop) (F : parser_err -> Prop) p a : Q a p -> tri Q F p (ret a).
Proof. intros H Hp e. cbn. auto. Qed.

Lemma tri_any {A B} (F : parser_err -> Prop) p (m : M E parser_err A) (f : A -> B) : tri any F p m -> tri any F p (do x <- m; ret (f x)).
Proof. intros H. eapply tri_bind; [exact H|]. intros. apply tri_ret. exact I. Qed.

(** Computations on the registry only. *)
Definition pure {A} (Q : A -> Prop) (m : M E parser_err A) : Prop := forall p e,
  match m p e with
  | (Ok a, q, _) => q = p /\ Q a
  | (Err (PRegistry _), _, _) => True
  | (Err _, _, _) => False
  | _ => True
  end.

Lemma pure_bind {A B} (Q : A -> Prop) (R : B -> nat -> Prop) (F : parser_err -> Prop) p (m : M E parser_err A) (f : A -> M E parser_err B) :
  pure Q m -> (forall a, Q a -> tri R F p (f a)) -> tri R F p (bind m f).
Proof.
  intros Hm Hf Hp e. specialize (Hm p e). unfold bind. destruct (m p e) as [[[a|x| |] q] e1]; try exact I.
  - destruct Hm as [-> H2]. exact (Hf a H2 Hp e1).
  - destruct x; try contradiction. exact I.
Qed.

Lemma map_reg_pure {A} (Q : A -> Prop) (m : M E reg_err A) :
  (forall p e, match m p e with (Ok a, q, _) => q = p /\ Q a | _ => True end) -> pure Q (map_err PRegistry m).
Proof. intros H p e. specialize (H p e). unfold map_err. destruct (m p e) as [[[a|x| |] q] e1]; auto. Qed.

Lemma lift_pure {A} (Q : A -> Prop) (x : A + int_err) : (forall a, x = inl a -> Q a) -> pure Q (@lift_p E A x).
Proof. intros H p e. unfold lift_p, map_err, lift. destruct x as [a|y]; cbn; auto. Qed.

Lemma reject_pure c : pure (fun _ => compact_at c = None) (@reject_compact_m E c).
Proof. intros p e. unfold reject_compact_m, reject_compact. destruct (compact_at c); cbn; auto. Qed.

Lemma resolve_pure id : pure (fun t => lookup types id = Some t) (map_err PRegistry (resolve_ty r id)).
Proof.
  apply map_reg_pure. intros p e. pose proof (resolve_total types id p e) as H. destruct (lookup types id); rewrite H; auto.
Qed.

Lemma block_tri {A} (Q : A -> nat -> Prop) F c p (m : M E parser_err A) : (compact_at c = None -> tri Q F p m) -> tri Q F p (block_compact c m).
Proof. intros H. unfold block_compact. destruct (compact_at c); [intros Hp e; exact I|apply H; reflexivity]. Qed.

(** *** Leaves *)

Lemma has_fit p n : (p + n <= L)%nat -> has data p (slice data p n).
Proof. apply has_slice. Qed.

Lemma find_tri w p : tri (fun x q => q = p /\ fits w (fst x) = true /\ snd x = (p + List.length (compact_enc (fst x)))%nat /\ (snd x <= L)%nat /\
     stands (compact_enc (fst x)) p) (fun x => x = NoCompact p /\ no_number data w p) p (find_compact w b p).
Proof.
  intros Hp e. destruct (find_compact_total data Hbytes w p p e) as [(n & p' & H)|(x & H & Hx & Hno)]; rewrite H.
  - split; [lia|]. apply find_compact_ok in H; [|exact Hbytes]. destruct H as (_ & _ & Hf & Hp' & Hl & Hsl). cbn [fst snd].
    split; [reflexivity|]. split; [exact Hf|]. split; [exact Hp'|]. split; [exact Hl|]. apply stands_has. split; [exact Hsl|exact Hp].
  - destruct Hx as [-> | [-> Hx] ]; [|lia]. split; [reflexivity|]. intros n Hf Hs. apply stands_has in Hs. destruct Hs as [Hs _].
    apply (Hno n Hf); [exact (has_le _ _ _ Hs Hp)|exact Hs].
Qed.

Lemma get_compact_tri w p : tri (fun n q => fits w n = true /\ stands (compact_enc n) p /\ q = (p + List.length (compact_enc n))%nat)
  (fun x => x = NoCompact p /\ no_number data w p) p (get_compact w b).
Proof.
  intros Hp e. unfold get_compact, bind, get_pos. pose proof (find_tri w p Hp e) as H.
  destruct (find_compact w b p p e) as [[[ [n s]|x| |] q] e1]; try exact I; [|exact H].
  cbn [fst snd] in H. destruct H as (_ & _ & Hf & -> & Hl & Hs). unfold set_pos, ret. auto.
Qed.

Lemma read_tri n p s : (s <= L)%nat -> tri (fun l q => q = p /\ l = slice data s (N.to_nat n) /\ (s + N.to_nat n <= L)%nat)
  (fun x => x = PBuffer (DataTooShort s n) /\ lacks s n) p (read_slice b s n).
Proof.
  intros Hs Hp e. unfold read_slice. cbn [rd slice_buffer]. unfold slice_rd.
  destruct (L <? s)%nat eqn:H1; [lia|]. destruct (N.of_nat L <? N.of_nat s + n)%N eqn:H2.
  - split; [reflexivity|]. unfold SpecFault.lacks. lia.
  - split; [exact Hp|]. split; [reflexivity|]. split; [reflexivity|lia].
Qed.

(** What a value of [n] bytes may be wrong with. *)
Definition cut_wrong (n : N) (name : string) (bad : bytes -> Prop) (p : nat) (x : parser_err) : Prop :=
  (x = PBuffer (DataTooShort p n) /\ lacks p n) \/
  (x = TypeFailure p name /\ exists l rest, is_bytes l /\ List.length l = N.to_nat n /\ skipn p data = l ++ rest /\ bad l).

Lemma cut_tri {A} n name (f : bytes -> option A) p : tri any (cut_wrong n name (fun l => f l = None) p) p (cut_and_decode b n name f).
Proof.
  intros Hp e. unfold cut_and_decode, bind at 1, get_pos, bind at 1. unfold read_exact, bind at 1, get_pos, bind at 1.
  pose proof (read_tri n p p Hp Hp e) as H. destruct (read_slice b p n p e) as [[[l|x| |] q] e1] eqn:Hr; try exact I.
  - destruct H as (_ & -> & -> & Hl). destruct (_ =? n)%N; [|exact I]. unfold ret at 1.
    destruct (f (slice data p (N.to_nat n))) as [a|] eqn:Hf.
    + unfold shift_pos, bind, get_pos, set_pos, ret. split; [lia|exact I].
    + cbn [fail]. right. split; [reflexivity|]. exists (slice data p (N.to_nat n)), (skipn (p + N.to_nat n) data).
      split; [apply is_bytes_slice, Hbytes|]. split; [apply slice_length; lia|]. split; [apply skipn_slice, Hl|exact Hf].
  - destruct x; try exact I; try (destruct H; discriminate). left. exact H.
Qed.

Lemma cut_any {A} n (f : bytes -> A) p : tri any (fun x => x = PBuffer (DataTooShort p n) /\ lacks p n) p (cut_and_decode b n "" (fun l => Some (f l))).
Proof.
  eapply tri_weak; [apply cut_tri|intros; exact I|]. intros x [H|(_ & l & rest & _ & _ & _ & H)]; [exact H|discriminate].
Qed.

Lemma era_tri t p : classify t = SpEra -> tri any (leaf_fault types data t false p) p (special_case_era b).
Proof.
  intros Hc Hp e. unfold special_case_era, bind at 1, get_pos, bind at 1.
  pose proof (read_tri 1 p p Hp Hp e) as H.
  destruct (read_slice b p 1 p e) as [[[l1|x| |] q] e1] eqn:Hr; try exact I.
  2:{ destruct x; try exact I; try (destruct H; discriminate). destruct H as [-> H]. apply LF_era_first; auto. }
  destruct H as (_ & -> & -> & Hl1). change (N.to_nat 1) with 1%nat in *.
  destruct (era_decode_all (slice data p 1)) eqn:He1.
  { unfold bind, set_pos, ret. split; [lia|exact I]. }
  assert (Hx : exists x, nth_error data p = Some x /\ slice data p 1 = [x]).
  { destruct (nth_error data p) as [x|] eqn:Hx; [|apply nth_error_None in Hx; lia]. exists x. split; [reflexivity|].
    pose proof (has_slice data p 1 ltac:(lia)) as Hs. assert (Hsl : List.length (slice data p 1) = 1%nat) by (apply slice_length; lia).
    destruct (slice data p 1) as [|y [|]]; cbn in Hsl; try lia. apply has_cons in Hs. destruct Hs as [Hs _]. congruence. }
  destruct Hx as (x & Hx & Hs1).
  assert (Hx0 : x <> 0%N).
  { intros ->. rewrite Hs1 in He1. discriminate. }
  unfold bind. pose proof (read_tri 2 p p Hp Hp e1) as H2.
  destruct (read_slice b p 2 p e1) as [[[l2|y| |] q] e2] eqn:Hr2; try exact I.
  2:{ destruct y; try exact I; try (destruct H2; discriminate). destruct H2 as [-> H2]. eapply LF_era_second; eauto. }
  destruct H2 as (_ & -> & -> & Hl2). change (N.to_nat 2) with 2%nat in *.
  destruct (era_decode_all (slice data p 2)) eqn:He2.
  { unfold set_pos, ret. split; [lia|exact I]. }
  cbn [fail]. apply LF_wrong; [reflexivity| |].
  { intros store order Hd. unfold def_of in Hd. rewrite Hc in Hd. discriminate. }
  assert (Hsl : List.length (slice data p 2) = 2%nat) by (apply slice_length; lia).
  assert (Hs2 : slice data p 1 = firstn 1 (slice data p 2)).
  { unfold slice. rewrite firstn_firstn. reflexivity. }
  rewrite (skipn_slice data p 2) by lia.
  destruct (slice data p 2) as [|x2 [|y [|]]]; cbn in Hsl; try lia. rewrite Hs2 in Hs1. cbn [firstn] in Hs1.
  injection Hs1 as ->. cbn [app]. apply Wrong_era; [exact Hc|]. intros v rest Hv Heq.
  destruct (era_enc_shape v Hv) as [[-> Hs]|(b0 & b1 & Hs & _ & _ & _ & Hd)]; rewrite Hs in Heq; cbn [app] in Heq.
  - injection Heq as Hx1 _. contradiction.
  - injection Heq as -> -> _. cbn [era_decode_all] in He2. destruct (N.eqb_spec b0 0) as [He0|He0]; [contradiction|]. congruence.
Qed.

Lemma str_tri t h p : def_of t = Some (TPrimitive PrStr) -> tri any (leaf_fault types data t false p) p (decode_str b h).
Proof.
  intros Hd.
  assert (Hbeg : begins t false = Some U32) by (rewrite (begins_def _ _ _ Hd); reflexivity).
  intros Hp e. unfold decode_str, bind at 1, get_pos, bind at 1.
  pose proof (find_tri U32 p Hp e) as H.
  destruct (find_compact U32 b p p e) as [[[ [n s]|x| |] q] e1] eqn:Hfind; try exact I.
  2:{ destruct x; try exact I; try (destruct H; discriminate). destruct H as [-> H]. eapply LF_number; eauto. }
  cbn [fst snd] in H. destruct H as (_ & -> & Hf & Hs & Hl & Hst).
  unfold bind at 1. pose proof (read_tri n p s Hl Hp e1) as H.
  destruct (read_slice b s n p e1) as [[[l|x| |] q] e2] eqn:Hr; try exact I.
  2:{ destruct x; try exact I; try (destruct H; discriminate). destruct H as [-> H]. subst s. apply LF_text; auto. }
  destruct H as (_ & -> & -> & Hl2).
  destruct (utf8_valid (slice data s (N.to_nat n))) eqn:Hu.
  { unfold bind, set_pos, ret. split; [lia|exact I]. }
  cbn [fail]. apply LF_wrong; [reflexivity|congruence|]. apply stands_has in Hst. destruct Hst as [Hst _]. unfold has in Hst.
  rewrite (skipn_slice data p (List.length (compact_enc n))) by lia. rewrite Hst. rewrite <- Hs.
  rewrite (skipn_slice data s (N.to_nat n)) by lia.
  assert (Hlen : N.of_nat (List.length (slice data s (N.to_nat n))) = n) by (rewrite slice_length; lia).
  rewrite <- Hlen at 1. apply Wrong_text; [exact Hd|rewrite Hlen; exact Hf|].
  intros cs Hcs He. assert (utf8_valid (slice data s (N.to_nat n)) = true) by (apply utf8_valid_spec; eauto). congruence.
Qed.

Lemma bit_sequence_tri t store order id p : def_of t = Some (TBitSequence store order) ->
  tri any (leaf_fault types data t false p) p (decode_bit_sequence b r store order id).
Proof.
  intros Hd.
  assert (Hbeg : begins t false = Some U32) by (rewrite (begins_def _ _ _ Hd); reflexivity).
  unfold decode_bit_sequence. intros Hp. unfold bind at 1, get_pos. revert Hp.
  match goal with |- (p <= L)%nat -> forall e, match ?m p e with _ => _ end => change (tri any (leaf_fault types data t false p) p m) end.
  apply pure_bind with (Q := fun o => bit_order_of types order = Some o).
  { apply map_reg_pure. intros q e. destruct (order_exact types order id q e) as (o & Ho & ->). destruct Ho as [Hl|ot fs Hl Hdd Hlast|ot fs Hl Hdd Hlast|ot Hl Hother].
    - exact I.
    - split; [reflexivity|]. unfold bit_order_of. rewrite Hl. destruct ot as [pa0 pr0 df0 do0]. cbn [t_def t_path] in *. rewrite Hdd, Hlast. reflexivity.
    - split; [reflexivity|]. unfold bit_order_of. rewrite Hl. destruct ot as [pa0 pr0 df0 do0]. cbn [t_def t_path] in *. rewrite Hdd, Hlast. reflexivity.
    - exact I. }
  intros o Ho. eapply pure_bind; [apply resolve_pure|]. intros st Hst. cbv beta in Hst.
  assert (Hgood : forall w, bit_store types store = Some w ->
     tri any (leaf_fault types data t false p) p (do l <- into_bitvec_decode b (N.of_nat (usize w)); match bitvec_decode_all w o l with Some bits => ret (DBitVec w o bits) | None => fail (TypeFailure p (bitvec_name w o)) end)).
  { intros w Hw Hp e. unfold bind at 1. unfold into_bitvec_decode, bitvec_positions, bind at 1, get_pos, bind at 1, bind at 1.
    pose proof (find_tri U32 p Hp e) as H.
    destruct (find_compact U32 b p p e) as [[[ [n s]|x| |] q] e1] eqn:Hfind; try exact I.
    2:{ destruct x; try exact I; try (destruct H; discriminate). destruct H as [-> H]. eapply LF_number; eauto. }
    cbn [fst snd] in H. destruct H as (_ & -> & Hf & Hs & Hl & Hst2). unfold ret at 1. cbv beta iota. unfold bind at 1.
    match goal with |- context [read_slice b p ?k p e1] => remember k as ml eqn:Hml end.
    assert (Hm : ml = (N.of_nat (List.length (compact_enc n)) + bits_bytes w n)%N).
    { rewrite Hml. rewrite bitvec_elements_store. unfold store_len, bits_bytes. rewrite Hs. replace (p + _ - p)%nat with (List.length (compact_enc n)) by lia. reflexivity. }
    pose proof (read_tri ml p p Hp Hp e1) as H. 
    destruct (read_slice b p ml p e1) as [[[l|x| |] q] e2] eqn:Hr; try exact I.
    2:{ destruct x; try exact I; try (destruct H; discriminate). destruct H as [-> H]. rewrite Hm in H |- *. eapply LF_bits; eauto. congruence. }
    destruct H as (_ & -> & Hlv & Hl2). unfold bind, set_pos, ret.
    destruct (bitvec_decode_all w o l) eqn:Hdec; [split; [lia|exact I]|]. cbn [fail].
    rewrite bits_text_name. pose proof Hst2 as Hst3. apply stands_has in Hst2. destruct Hst2 as [Hst2 _].
    assert (Hsplit : l = compact_enc n ++ slice data s (N.to_nat (bits_bytes w n))).
    { rewrite Hlv, Hm, N2Nat.inj_add, Nat2N.id, slice_app, Hst2, Hs. reflexivity. }
    eapply LF_many_bits; eauto.
    - eapply (wrong_bits types store order w o t l n); eauto.
      + subst l. apply is_bytes_slice, Hbytes.
      + rewrite slice_length by lia. unfold store_len, bits_bytes. lia.
    - unfold SpecFault.lacks. rewrite <- Hm. lia. }
  assert (Hbad : tri any (leaf_fault types data t false p) p (@fail E parser_err pdata (PRegistry (RInternal (NotBitStoreType id))))) by (intros Hp e; exact I).
  destruct (t_def st) as [| | | | |x| |] eqn:Hdef; try exact Hbad. destruct x as [| | |w| | |]; try exact Hbad.
  assert (Hw : w <> U128 -> bit_store types store = Some w).
  { intros Hw. unfold bit_store. rewrite Hst. destruct st as [pa0 pr0 df do0]. cbn [t_def] in Hdef. subst df. destruct w; try reflexivity. congruence. }
  destruct w; try exact Hbad; apply Hgood, Hw; discriminate.
Qed.

Lemma prim_tri t x c p : def_of t = Some (TPrimitive x) -> tri any (leaf_fault types data t (is_some (compact_at c)) p) p (decode_primitive b x c).
Proof.
  intros Hd. pose proof (fixed_size_def _ _ Hd) as Hfs. pose proof (begins_def _ _ (is_some (compact_at c)) Hd) as Hbeg.
  assert (Hnb : forall store order, def_of t <> Some (TBitSequence store order)) by congruence.
  assert (Hshort : forall k y, compact_at c = None -> fixed_size t = Some k -> y = PBuffer (DataTooShort p (N.of_nat k)) /\ lacks p (N.of_nat k) ->
     leaf_fault types data t (is_some (compact_at c)) p y).
  { intros k y Hc Hk [-> Hl]. apply LF_short; auto. rewrite Hc. reflexivity. }
  destruct x as [| | |w| |w|]; cbn [decode_primitive].
  - apply block_tri. intros Hc. apply tri_any. eapply tri_weak; [apply cut_tri|intros; exact I|]. intros y [H|(-> & l & rest & Hl & Hlen & Heq & Hf)].
    + exact (Hshort 1%nat y Hc Hfs H).
    + apply LF_wrong; [rewrite Hc; reflexivity|exact Hnb|]. rewrite Heq. change (N.to_nat 1) with 1%nat in Hlen. destruct l as [|z [|]]; try discriminate. cbn [decode_bool app] in *.
      apply Wrong_bool; [exact Hd| |]; intros ->; discriminate.
  - apply block_tri. intros Hc. apply tri_any. eapply tri_weak; [apply cut_tri|intros; exact I|]. intros y [H|(-> & l & rest & Hl & Hlen & Heq & Hf)].
    + exact (Hshort 4%nat y Hc Hfs H).
    + apply LF_wrong; [rewrite Hc; reflexivity|exact Hnb|]. rewrite Heq. change (N.to_nat 4) with 4%nat in Hlen. destruct (char_valid (le_val l)) eqn:Hv; [discriminate|].
      rewrite <- (le_bytes_le_val l Hl). rewrite Hlen. apply Wrong_char; [exact Hd| |rewrite <- char_valid_scalar; exact Hv].
      pose proof (le_val_bound l Hl) as Hbd. rewrite Hlen in Hbd. change (256 ^ N.of_nat 4)%N with (2 ^ 32)%N in Hbd. exact Hbd.
  - eapply pure_bind; [apply reject_pure|]. intros u Hc; cbv beta in Hc. rewrite Hc. apply str_tri, Hd.
  - unfold parse_uint. apply tri_any. destruct (compact_at c) as [i|]; cbn [is_some] in *.
    + eapply tri_weak; [apply get_compact_tri|intros; exact I|]. intros y [-> H]. eapply LF_number; eauto.
    + unfold cut_uint. eapply tri_weak; [apply cut_tri|intros; exact I|]. intros y [H|(-> & l & rest & Hl & Hlen & Heq & Hf)]; [|discriminate].
      exact (Hshort _ y eq_refl Hfs H).
  - apply block_tri. intros Hc. apply tri_any. eapply tri_weak; [apply cut_tri|intros; exact I|]. intros y [H|(-> & l & rest & Hl & Hlen & Heq & Hf)]; [|discriminate].
    exact (Hshort 32%nat y Hc Hfs H).
  - apply block_tri. intros Hc. apply tri_any. eapply tri_weak; [apply cut_tri|intros; exact I|]. intros y [H|(-> & l & rest & Hl & Hlen & Heq & Hf)]; [|discriminate].
    exact (Hshort _ y Hc Hfs H).
  - apply block_tri. intros Hc. apply tri_any. eapply tri_weak; [apply cut_tri|intros; exact I|]. intros y [H|(-> & l & rest & Hl & Hlen & Heq & Hf)]; [|discriminate].
    exact (Hshort 32%nat y Hc Hfs H).
Qed.

Lemma per_tri t k c p : classify t = SpPer k -> tri any (leaf_fault types data t (is_some (compact_at c)) p) p (parse_per b k c).
Proof.
  intros Hk. unfold parse_per. apply tri_any. assert (Hw : per_width k = part_width k) by (destruct k; reflexivity).
  destruct (compact_at c) as [i|]; cbn [is_some].
  - apply tri_any. rewrite Hw. eapply tri_weak; [apply get_compact_tri|intros; exact I|]. intros y [-> H]. eapply LF_number; [|exact H]. unfold begins, def_of. rewrite Hk. reflexivity.
  - unfold cut_per. rewrite per_text_name, Hw. eapply tri_weak; [apply cut_tri|intros; exact I|]. intros y [[-> H]|(-> & l & rest & Hl & Hlen & Heq & Hf)].
    + apply LF_short; [reflexivity| |exact H]. unfold fixed_size. rewrite Hk. reflexivity.
    + apply LF_wrong; [reflexivity| |].
      { unfold def_of. rewrite Hk. discriminate. }
      rewrite Heq. rewrite Nat2N.id in Hlen. destruct (N.leb_spec (le_val l) (per_max k)) as [Hv|Hv]; [discriminate|].
      rewrite per_max_whole in Hv. rewrite <- (le_bytes_le_val l Hl). rewrite Hlen. eapply Wrong_part; eauto. rewrite fits_pow.
      pose proof (le_val_bound l Hl) as Hbd. rewrite Hlen in Hbd. lia.
Qed.

Lemma fixed_tri k c p : tri any (fun x => compact_at c = None /\ x = PBuffer (DataTooShort p (N.of_nat (raw_len k))) /\ lacks p (N.of_nat (raw_len k))) p (parse_fixed b k c).
Proof.
  unfold parse_fixed. apply block_tri. intros Hc. apply tri_any. unfold cut_fixed. rewrite (fixed_len_raw k). eapply tri_weak; [apply cut_any|auto|]. auto.
Qed.

(** *** Elements *)

Lemma struct_enc cpt id t f v bs : lookup types id = Some t -> def_of t = Some (TComposite [f]) -> enc types cpt (f_ty f) v = Some bs ->
  enc types cpt id (VStruct [v]) = Some bs.
Proof.
  intros Hl Hd H. change (enc types cpt id (VStruct [v])) with
    (match lookup types id with None => None | Some t => match def_of t with
       | Some (TComposite fs) => if (cpt && Nat.leb 2 (List.length fs))%bool then None else enc_list (fun f => enc types cpt (f_ty f)) fs [v]
       | _ => None end end).
  rewrite Hl, Hd. cbn [List.length Nat.leb]. rewrite andb_false_r. cbn [enc_list]. rewrite H, app_nil_r. reflexivity.
Qed.

Lemma chain_enc seen cpt h id l seen' cpt' h' final : chain types seen cpt h id l seen' cpt' h' final ->
  forall v bs, enc types cpt' final v = Some bs -> exists w, enc types cpt id w = Some bs.
Proof.
  induction 1; intros v0 bs0 He.
  - eauto.
  - match goal with IH : forall v bs, _ -> exists w, _ |- _ => destruct (IH _ _ He) as (w & Hw) end.
    match goal with Ht : transparent _ = Some _ |- _ => destruct (transparent_false _ _ Ht) as (f2 & Hd2 & Hf2 & Hdef) end. rewrite Hf2 in Hw.
    exists (VStruct [w]). eapply struct_enc; eauto.
  - match goal with IH : forall v bs, _ -> exists w, _ |- _ => destruct (IH _ _ He) as (w & Hw) end.
    match goal with Ht : transparent _ = Some _ |- _ => destruct (transparent_true _ _ Ht) as (Hd2 & Hdef) end.
    exists (VCompact w). cbn [enc]. match goal with Hl : lookup types id = Some t |- _ => rewrite Hl, Hdef end. exact Hw.
Qed.

Lemma stands_nil p : (p <= L)%nat -> stands [] p.
Proof. intros H. apply stands_has. split; [apply has_nil|exact H]. Qed.

Lemma chain_fault seen cpt h id l seen' cpt' h' final : chain types seen cpt h id l seen' cpt' h' final ->
  forall p x, (p <= L)%nat -> fault cpt' final p x -> fault cpt id p x.
Proof.
  induction 1; intros p0 x0 Hp Hf.
  - exact Hf.
  - match goal with IH : forall p x, _ -> _ -> _ |- _ => specialize (IH _ _ Hp Hf) end.
    match goal with Ht : transparent _ = Some _ |- _ => destruct (transparent_false _ _ Ht) as (f2 & Hd2 & Hf2 & Hdef) end. rewrite Hf2 in *.
    refine (Fault_field types data cpt id p0 t [] f2 [] [] [] x0 _ Hdef _ eq_refl (stands_nil p0 Hp) _); [assumption|auto|].
    cbn [List.length]. rewrite Nat.add_0_r. assumption.
  - match goal with IH : forall p x, _ -> _ -> _ |- _ => specialize (IH _ _ Hp Hf) end.
    match goal with Ht : transparent _ = Some _ |- _ => destruct (transparent_true _ _ Ht) as (Hd2 & Hdef) end.
    eapply Fault_compact; eauto.
Qed.

(** *** The decoder *)

Section Step.
Variable d : ty_input -> propagated -> M E parser_err (ext pdata).
Hypothesis Hsound : sound types data d.

Definition cpt_of (P : propagated) : bool := is_some (compact_at (checker_of P)).
Hypothesis Hd : forall i P p, good types i -> tri any (fault (cpt_of P) (ty_id i) p) p (d i P).

(** A part of a value. *)
Lemma part_tri i P p : good types i ->
  tri (fun _ q => exists v bs, enc types (cpt_of P) (ty_id i) v = Some bs /\ stands bs p /\ q = (p + List.length bs)%nat)
      (fault (cpt_of P) (ty_id i) p) p (d i P).
Proof.
  intros Hg Hp e. pose proof (Hd i P p Hg Hp e) as H. destruct (d i P p e) as [[[x|x| |] q] e1] eqn:Hr; try exact I; [|exact H].
  split; [apply H|]. destruct (Hsound i P p e x q e1 Hg Hr) as (_ & l & _ & v & bs & He & _ & _ & Hh & ->).
  exists v, bs. split; [exact He|]. split; [apply stands_has; auto|reflexivity].
Qed.

Lemma stands_app l1 l2 p : stands l1 p -> stands l2 (p + List.length l1) -> stands (l1 ++ l2) p.
Proof. rewrite !stands_has. intros [H1 H2] [H3 _]. split; [apply has_app; auto|exact H2]. Qed.

(** The first part with a fault. *)
Definition part_fault {A} (c : bool) (f : A -> N) (l : list A) (p : nat) (x : parser_err) : Prop :=
  exists l1 a l2 vs bs, l = l1 ++ a :: l2 /\ enc_list (fun a => enc types c (f a)) l1 vs = Some bs /\ stands bs p /\ fault c (f a) (p + List.length bs) x.

Lemma part_here {A} c (f : A -> N) a l p x : (p <= L)%nat -> fault c (f a) p x -> part_fault c f (a :: l) p x.
Proof.
  intros Hp H. exists [], a, l, [], []. split; [reflexivity|]. split; [reflexivity|]. split; [apply stands_nil, Hp|].
  cbn [List.length]. rewrite Nat.add_0_r. exact H.
Qed.

Lemma part_next {A} c (f : A -> N) a l p x v bs : enc types c (f a) v = Some bs -> stands bs p -> part_fault c f l (p + List.length bs) x ->
  part_fault c f (a :: l) p x.
Proof.
  intros He Hs (l1 & a2 & l2 & vs & b2 & -> & He2 & Hs2 & Hf). exists (a :: l1), a2, l2, (v :: vs), (bs ++ b2). split; [reflexivity|].
  split; [cbn [enc_list]; rewrite He, He2; reflexivity|]. split; [apply stands_app; assumption|]. rewrite app_length, Nat.add_assoc. exact Hf.
Qed.

Lemma fields_loop_tri c : forall fs p, tri any (part_fault (is_some (compact_at c)) f_ty fs p) p (fields_loop d fs c).
Proof.
  induction fs as [|f fs IH]; intros p; cbn [fields_loop]; [apply tri_ret; exact I|].
  apply pure_bind with (Q := fun P => compact_at (checker_of P) = compact_at c).
  { apply lift_pure. intros P HP. apply for_field_ok in HP. destruct HP as [_ ->]. reflexivity. }
  intros P HP. apply tri_le. intros Hp.
  assert (Hc : cpt_of P = is_some (compact_at c)) by (unfold cpt_of; rewrite HP; reflexivity).
  eapply tri_then; [apply (part_tri (Symbol (f_ty f)) P p I)| |].
  - intros x H. cbn [ty_id] in H. rewrite Hc in H. apply part_here; assumption.
  - intros x q (v & bs & He & Hs & ->) Hq. cbn [ty_id] in He. rewrite Hc in He. eexists. split; [apply tri_any, IH|].
    intros y Hy. eapply part_next; eauto.
Qed.

Lemma fields_tri fs c p : tri any (fun x => part_fault (is_some (compact_at c)) f_ty fs p x /\ (compact_at c <> None -> List.length fs = 1%nat)) p (decode_fields d fs c).
Proof.
  unfold decode_fields. destruct fs as [|f [|g fs]].
  - eapply tri_weak; [apply fields_loop_tri|auto|]. intros x (l1 & a & l2 & _ & _ & H & _). destruct l1; discriminate.
  - eapply tri_weak; [apply fields_loop_tri|auto|]. auto.
  - eapply pure_bind; [apply reject_pure|]. intros u Hc; cbv beta in Hc. eapply tri_weak; [apply fields_loop_tri|auto|].
    cbn [forget_hint compact_at]. intros x H. split; [exact H|]. congruence.
Qed.

Lemma pick_tri vs p : tri (fun v q => q = p /\ exists i, nth_error data p = Some i /\ by_index vs i = Some v) (index_fault data vs p) p (pick_variant b vs p).
Proof.
  intros Hp e. pose proof (pick_variant_total (E := E) data vs p p e) as H. destruct (nth_error data p) as [i|] eqn:Hi.
  - destruct (by_index vs i) as [v|] eqn:Hv; rewrite H.
    + split; [exact Hp|]. eauto.
    + eapply IF_unknown; eauto.
  - clear H. unfold pick_variant, bind, read_byte, bind. apply nth_error_None in Hi.
    pose proof (read_tri 1 p p Hp Hp e) as H. destruct (read_slice b p 1 p e) as [[[l|x| |] q] e1]; try exact I.
    + destruct H as (_ & _ & _ & H). lia.
    + destruct x; try exact I; try (destruct H; discriminate). destruct H as [-> H]. apply IF_short, H.
Qed.

Lemma variant_tri vs p : tri any (fun x => index_fault data vs p x \/
    exists i v, nth_error data p = Some i /\ by_index vs i = Some v /\ part_fault false f_ty (v_fields v) (p + 1) x) p (decode_variant b d vs).
Proof.
  unfold decode_variant. apply tri_get. eapply tri_then; [apply pick_tri|auto|].
  intros v q (-> & i & Hi & Hv) Hp. eexists. split.
  - apply tri_set; [change ENUM_INDEX_ENCODED_LEN with 1%nat; enough (p < L)%nat by lia; apply nth_error_Some; congruence|].
    apply tri_any, fields_tri.
  - intros x [Hx _]. right. exists i, v. auto.
Qed.

Lemma elements_loop_tri el hu seen l : good types (Resolved (hu_ty hu) (hu_id hu)) ->
  chain types seen false HNone el l (cycle_check (hu_checker hu)) (is_some (compact_at (hu_checker hu))) (c_hint (hu_checker hu)) (hu_id hu) ->
  forall n p, tri any (fun x => exists vs bs, (List.length vs < n)%nat /\ enc_all (enc types false el) vs = Some bs /\ stands bs p /\ fault false el (p + List.length bs) x)
    p (elements_loop d n hu).
Proof.
  intros Hg Hch. induction n as [|n IH]; intros p; cbn [elements_loop]; [apply tri_ret; exact I|].
  apply tri_le. intros Hp. eapply tri_then; [apply (part_tri _ _ p Hg)| |].
  - intros x H. exists [], []. split; [cbn; lia|]. split; [reflexivity|]. split; [apply stands_nil, Hp|]. cbn [List.length]. rewrite Nat.add_0_r.
    exact (chain_fault _ _ _ _ _ _ _ _ _ Hch p x Hp H).
  - intros x q (v & bs & He & Hs & ->) Hq. eexists. split; [apply tri_any, IH|]. intros y (vs & b2 & Hn & He2 & Hs2 & Hf).
    destruct (chain_enc _ _ _ _ _ _ _ _ _ Hch _ _ He) as (w & Hw). exists (w :: vs), (bs ++ b2). split; [cbn [List.length]; lia|].
    split; [cbn [enc_all]; fold (enc_all (enc types false el)); rewrite Hw, He2; reflexivity|]. split; [apply stands_app; assumption|]. rewrite app_length, Nat.add_assoc. exact Hf.
Qed.

Lemma elements_tri elem n P p : tri any (fun x => cpt_of P = false /\
    exists vs bs, (N.of_nat (List.length vs) < n)%N /\ enc_all (enc types false elem) vs = Some bs /\ stands bs p /\ fault false elem (p + List.length bs) x)
  p (decode_elements_set r d elem n P).
Proof.
  unfold decode_elements_set. eapply pure_bind; [apply reject_pure|]. intros u Hc; cbv beta in Hc.
  apply pure_bind with (Q := fun hu => good types (Resolved (hu_ty hu) (hu_id hu)) /\
     chain types (cycle_check (checker_of P)) false HNone elem (hu_info hu) (cycle_check (hu_checker hu)) (is_some (compact_at (hu_checker hu))) (c_hint (hu_checker hu)) (hu_id hu)).
  { apply map_reg_pure. intros q e. destruct (husk_type r elem (checker_of P) q e) as [[[hu|x| |] q2] e2] eqn:Hh; try exact I.
    apply husk_type_chain in Hh. destruct Hh as (-> & _ & H1 & H2). auto. }
  intros hu [H1 H2]. destruct (N.eqb_spec n 0) as [Hn|Hn]; [apply tri_ret; exact I|].
  apply tri_any. eapply tri_weak; [apply (elements_loop_tri elem hu _ _ H1 H2)|auto|]. intros x (vs & bs & Hl & He & Hs & Hf).
  split; [unfold cpt_of; rewrite Hc; reflexivity|]. exists vs, bs. split; [lia|auto].
Qed.

Lemma tuple_loop_tri c : forall ids p, tri any (part_fault (is_some (compact_at c)) (fun i => i) ids p) p (tuple_loop r d ids c).
Proof.
  induction ids as [|i ids IH]; intros p; cbn [tuple_loop]; [apply tri_ret; exact I|].
  eapply pure_bind; [apply resolve_pure|]. intros t Ht; cbv beta in Ht.
  apply pure_bind with (Q := fun P => compact_at (checker_of P) = compact_at c).
  { apply lift_pure. intros P HP. apply for_ty_ok in HP. destruct HP as [_ ->]. reflexivity. }
  intros P HP. apply tri_le. intros Hp.
  assert (Hc : cpt_of P = is_some (compact_at c)) by (unfold cpt_of; rewrite HP; reflexivity).
  eapply tri_then; [apply (part_tri (Resolved t i) P p Ht)| |].
  - intros x H. cbn [ty_id] in H. rewrite Hc in H. apply part_here; assumption.
  - intros x q (v & bs & He & Hs & ->) Hq. cbn [ty_id] in He. rewrite Hc in He. eexists. split; [apply tri_any, IH|].
    intros y Hy. eapply (part_next _ (fun i => i)); eauto.
Qed.

Lemma one_part {A} (l1 : list A) a l2 : List.length (l1 ++ a :: l2) = 1%nat -> l1 = [] /\ l2 = [].
Proof. rewrite app_length. cbn [List.length]. destruct l1, l2; cbn [List.length]; intros; try lia; auto. Qed.

Lemma plain_tri t id P p : lookup types id = Some t -> def_of t = Some (t_def t) -> ordinary types data t p ->
  tri any (fault (cpt_of P) id p) p (decode_plain b r d t id P).
Proof.
  intros Ht Hdef Hord. unfold decode_plain. pose proof (begins_def _ _ (cpt_of P) Hdef) as Hbeg.
  destruct (t_def t) as [fs|vs|el|len el|ids|x|inner|store order] eqn:Htd.
  - apply tri_any. eapply tri_weak; [apply fields_tri|auto|]. intros x [(l1 & f & l2 & ws & bs & -> & He & Hs & Hf) Hc].
    refine (Fault_field types data (cpt_of P) id p t l1 f l2 ws bs x Ht Hdef _ He Hs Hf). intros Hct. apply (one_part l1 f l2), Hc.
    unfold cpt_of in Hct. destruct (compact_at (checker_of P)); [discriminate|discriminate Hct].
  - eapply pure_bind; [apply reject_pure|]. intros u Hc; cbv beta in Hc. assert (Hcf : cpt_of P = false) by (unfold cpt_of; rewrite Hc; reflexivity).
    destruct vs as [|v0 vs0]; [apply tri_ret; exact I|]. remember (v0 :: vs0) as vs eqn:Hvs. assert (Hne : vs <> []) by (rewrite Hvs; discriminate). clear Hvs.
    apply tri_any. eapply tri_weak; [apply variant_tri|auto|]. intros x [Hx|(i & v & Hi & Hv & l1 & f & l2 & ws & bs & Hvf & He & Hs & Hf)].
    + eapply Fault_index; eauto.
    + destruct (Hord vs i v Htd Hi Hv) as [Hns Hni].
      refine (Fault_variant types data (cpt_of P) id p t vs i v l1 f l2 ws bs x Hcf Ht Hdef Hv Hns Hni Hvf He _ Hf).
      apply stands_has in Hs. destruct Hs as [Hs Hle]. apply stands_has. split; [apply has_cons; auto|lia].
  - apply (tri_then (fun n q => fits U32 n = true /\ stands (compact_enc n) p /\ q = (p + List.length (compact_enc n))%nat) any
       (fun x => x = NoCompact p /\ no_number data U32 p)); [apply get_compact_tri| |].
    + intros x [-> Hx]. eapply Fault_leaf; [exact Ht|]. eapply LF_number; eauto.
    + intros n q (Hf & Hs & ->) Hq. eexists. split; [apply elements_tri|]. cbv beta. intros x [Hc (vs & bs & Hn & He & Hs2 & Hx)].
      refine (Fault_element types data (cpt_of P) id p t el n vs bs x Hc Ht Hdef Hf Hn He (stands_app _ _ _ Hs Hs2) _).
      rewrite app_length, Nat.add_assoc. exact Hx.
  - eapply tri_weak; [apply elements_tri|auto|]. intros x [Hc (vs & bs & Hn & He & Hs2 & Hx)].
    exact (Fault_array types data (cpt_of P) id p t len el vs bs x Hc Ht Hdef Hn He Hs2 Hx).
  - assert (Hgo : forall c, compact_at c = compact_at (checker_of P) -> (compact_at c <> None -> List.length ids <= 1)%nat ->
      tri any (fault (cpt_of P) id p) p (do l <- tuple_loop r d ids c; ret (Ext (DTuple l) (info_of P)))).
    { intros c Hc Hlen. apply tri_any. eapply tri_weak; [apply tuple_loop_tri|auto|]. intros x (l1 & i & l2 & ws & bs & -> & He & Hs & Hf).
      rewrite Hc in He, Hf. refine (Fault_member types data (cpt_of P) id p t l1 i l2 ws bs x Ht Hdef _ He Hs Hf).
      intros Hct. unfold cpt_of in Hct. apply (one_part l1 i l2). rewrite app_length in *. cbn [List.length] in *. rewrite Hc in Hlen.
      destruct (compact_at (checker_of P)); [|discriminate]. specialize (Hlen ltac:(discriminate)). lia. }
    destruct ids as [|i [|j ids]].
    + apply Hgo; [reflexivity|cbn; lia].
    + apply Hgo; [reflexivity|cbn; lia].
    + eapply pure_bind; [apply reject_pure|]. intros u Hc; cbv beta in Hc. apply Hgo; cbn [forget_hint compact_at]; congruence.
  - apply tri_any. eapply tri_weak; [apply (prim_tri t x (checker_of P) p Hdef)|auto|]. intros y Hy. eapply Fault_leaf; eauto.
  - eapply pure_bind; [apply reject_pure|]. intros u Hc; cbv beta in Hc. assert (Hcf : cpt_of P = false) by (unfold cpt_of; rewrite Hc; reflexivity).
    apply pure_bind with (Q := fun c => compact_at c = Some id).
    { apply lift_pure. intros c Hck. apply check_id_ok in Hck. destruct Hck as [_ ->]. reflexivity. }
    intros c Hci. eapply tri_weak; [apply (Hd (Symbol inner) (Propagated c (info_of P)) p I)|auto|].
    intros x Hx. cbn [ty_id] in Hx. unfold cpt_of in Hx at 1. cbn [checker_of] in Hx. rewrite Hci in Hx. cbn [is_some] in Hx. eapply Fault_compact; eauto.
  - eapply pure_bind; [apply reject_pure|]. intros u Hc; cbv beta in Hc. assert (Hcf : cpt_of P = false) by (unfold cpt_of; rewrite Hc; reflexivity).
    apply tri_any. eapply tri_weak; [apply (bit_sequence_tri t store order id p Hdef)|auto|]. intros y Hy. eapply Fault_leaf; eauto. rewrite Hcf. exact Hy.
Qed.

Lemma checked_tri t id P p : lookup types id = Some t ->
  tri any (fault (cpt_of P) id p) p (do k <- checked_from_type b r t; decode_checked b r d k t id P).
Proof.
  intros Ht Hp e. unfold bind at 1.
  destruct (checked_from_type b r t p e) as [[[k|x| |] q] e1] eqn:Hk; try exact I.
  2:{ destruct (checked_exact types data t p e) as (k2 & n & _ & H2). congruence. }
  apply checked_from_type_inv in Hk. destruct Hk as (-> & Hk). injection Hk as -> ->.
  assert (HD : tri any (fault (cpt_of P) id p) (p + snd (checked_of types t (nth_error data p))) (decode_checked b r d (fst (checked_of types t (nth_error data p))) t id P)).
  { destruct (fst (checked_of types t (nth_error data p))) as [|k| | |pn pi vars item|k] eqn:Hfst; cbn [decode_checked].
    - destruct (checked_none_plain types data t p Hfst) as (-> & Hdef & Hord). rewrite Nat.add_0_r. apply plain_tri; assumption.
    - apply tri_any. eapply tri_weak; [apply fixed_tri|auto|]. intros x (Hc & -> & Hl). assert (Hcf : cpt_of P = false) by (unfold cpt_of; rewrite Hc; reflexivity).
      unfold checked_of in *. destruct (classify t) as [|k0| | |k0| |it] eqn:Hcl; try discriminate.
      + cbn [fst snd] in *. injection Hfst as ->. rewrite Nat.add_0_r in *. eapply Fault_leaf; [exact Ht|]. apply LF_short; [exact Hcf| |exact Hl].
        unfold fixed_size, def_of. rewrite Hcl. reflexivity.
      + destruct (t_def t) as [|vs| | | | | |] eqn:Hdf; try discriminate. destruct (nth_error data p) as [i|] eqn:Hi; [|discriminate].
        destruct (by_index vs i) as [var|] eqn:Hbi; [|discriminate]. destruct (variant_sig types t var) as [k0|] eqn:Hsg; [|discriminate].
        cbn [fst snd] in *. injection Hfst as ->.
        refine (Fault_signature types data (cpt_of P) id p t vs i var k Hcf Ht _ Hbi Hsg Hi Hl). unfold def_of. rewrite Hcl, Hdf. reflexivity.
      + exfalso. destruct (t_def t) as [|vs| | | | | |] eqn:Hdf; try discriminate. destruct (nth_error data p) as [i|] eqn:Hi; [|discriminate].
        destruct (by_index vs i) as [var|] eqn:Hbi; [|discriminate]. destruct (pallet_items types t var) as [[? ?]|]; discriminate.
    - eapply pure_bind; [apply reject_pure|]. intros u Hc; cbv beta in Hc. assert (Hcf : cpt_of P = false) by (unfold cpt_of; rewrite Hc; reflexivity).
      unfold checked_of in *. destruct (classify t) as [|k0| | |k0| |it] eqn:Hcl; try discriminate.
      + cbn [fst snd] in *. rewrite Nat.add_0_r in *. apply tri_any. eapply tri_weak; [apply (era_tri t p Hcl)|auto|]. intros x Hx. eapply Fault_leaf; eauto. rewrite Hcf. exact Hx.
      + exfalso. destruct (t_def t) as [|vs| | | | | |] eqn:Hdf; try discriminate. destruct (nth_error data p) as [i|] eqn:Hi; [|discriminate].
        destruct (by_index vs i) as [var|] eqn:Hbi; [|discriminate]. destruct (variant_sig types t var); discriminate.
      + exfalso. destruct (t_def t) as [|vs| | | | | |] eqn:Hdf; try discriminate. destruct (nth_error data p) as [i|] eqn:Hi; [|discriminate].
        destruct (by_index vs i) as [var|] eqn:Hbi; [|discriminate]. destruct (pallet_items types t var) as [[? ?]|]; discriminate.
    - eapply pure_bind; [apply reject_pure|]. intros u Hc; cbv beta in Hc. assert (Hcf : cpt_of P = false) by (unfold cpt_of; rewrite Hc; reflexivity).
      unfold checked_of in *. destruct (classify t) as [|k0| | |k0| |it] eqn:Hcl; try discriminate.
      + cbn [fst snd] in *. rewrite Nat.add_0_r in *. apply tri_any. unfold special_case_h256. apply tri_any. eapply tri_weak; [apply cut_any|auto|].
        intros x [-> Hl]. eapply Fault_leaf; [exact Ht|]. apply (LF_short types data t (cpt_of P) p 32%nat); [exact Hcf| |exact Hl].
        unfold fixed_size, def_of. rewrite Hcl. reflexivity.
      + exfalso. destruct (t_def t) as [|vs| | | | | |] eqn:Hdf; try discriminate. destruct (nth_error data p) as [i|] eqn:Hi; [|discriminate].
        destruct (by_index vs i) as [var|] eqn:Hbi; [|discriminate]. destruct (variant_sig types t var); discriminate.
      + exfalso. destruct (t_def t) as [|vs| | | | | |] eqn:Hdf; try discriminate. destruct (nth_error data p) as [i|] eqn:Hi; [|discriminate].
        destruct (by_index vs i) as [var|] eqn:Hbi; [|discriminate]. destruct (pallet_items types t var) as [[? ?]|]; discriminate.
    - eapply pure_bind; [apply reject_pure|]. intros u Hc; cbv beta in Hc. assert (Hcf : cpt_of P = false) by (unfold cpt_of; rewrite Hc; reflexivity).
      unfold checked_of in *. destruct (classify t) as [|k0| | |k0| |it] eqn:Hcl; try discriminate.
      + exfalso. destruct (t_def t) as [|vs| | | | | |] eqn:Hdf; try discriminate. destruct (nth_error data p) as [i|] eqn:Hi; [|discriminate].
        destruct (by_index vs i) as [var|] eqn:Hbi; [|discriminate]. destruct (variant_sig types t var); discriminate.
      + destruct (t_def t) as [|vs| | | | | |] eqn:Hdf; try discriminate. destruct (nth_error data p) as [i|] eqn:Hi; [|discriminate].
        destruct (by_index vs i) as [var|] eqn:Hbi; [|discriminate]. destruct (pallet_items types t var) as [[inn items]|] eqn:Hpi; [|discriminate].
        cbn [fst snd] in *. injection Hfst as <- <- -> ->.
        assert (Hdef : def_of t = Some (TVariant vs)) by (unfold def_of; rewrite Hcl, Hdf; reflexivity).
        apply tri_any. eapply tri_weak; [apply variant_tri|auto|]. intros x [Hx|(j & item2 & Hj & Hv & l1 & f & l2 & ws & bs & Hvf & He & Hs & Hf)].
        * exact (Fault_item_index types data (cpt_of P) id p t vs i var inn vars x Hcf Ht Hdef Hbi Hpi Hi Hx).
        * refine (Fault_item types data (cpt_of P) id p t vs i var inn vars j item2 l1 f l2 ws bs x Hcf Ht Hdef Hbi Hpi Hv Hvf He _ _).
          -- apply stands_has in Hs. destruct Hs as [Hs Hle]. apply stands_has. split; [|exact Hp]. apply has_cons. split; [exact Hi|]. apply has_cons. auto.
          -- replace (p + 2 + List.length bs)%nat with (p + 1 + 1 + List.length bs)%nat by lia. exact Hf.
    - unfold checked_of in *. destruct (classify t) as [|k0| | |k0| |it] eqn:Hcl; try discriminate.
      + cbn [fst snd] in *. injection Hfst as ->. rewrite Nat.add_0_r in *. apply tri_any. eapply tri_weak; [apply (per_tri t k _ p Hcl)|auto|]. intros x Hx. eapply Fault_leaf; eauto.
      + exfalso. destruct (t_def t) as [|vs| | | | | |] eqn:Hdf; try discriminate. destruct (nth_error data p) as [i|] eqn:Hi; [|discriminate].
        destruct (by_index vs i) as [var|] eqn:Hbi; [|discriminate]. destruct (variant_sig types t var); discriminate.
      + exfalso. destruct (t_def t) as [|vs| | | | | |] eqn:Hdf; try discriminate. destruct (nth_error data p) as [i|] eqn:Hi; [|discriminate].
        destruct (by_index vs i) as [var|] eqn:Hbi; [|discriminate]. destruct (pallet_items types t var) as [[? ?]|]; discriminate. }
  apply HD. assert (Hsn : (snd (checked_of types t (nth_error data p)) <= 1)%nat /\ (snd (checked_of types t (nth_error data p)) = 1%nat -> nth_error data p <> None)).
  { unfold checked_of. destruct (classify t); cbn [snd]; try (split; [lia|discriminate]); destruct (t_def t); cbn [snd]; try (split; [lia|discriminate]);
      (destruct (nth_error data p) as [ib|]; cbn [snd]; [|split; [lia|discriminate] ]); (destruct (by_index _ ib) as [var|]; cbn [snd]; [|split; [lia|discriminate] ]).
    - destruct (variant_sig types t var); cbn [snd]; split; try lia; discriminate.
    - destruct (pallet_items types t var) as [[inn items]|]; cbn [snd]; split; try lia; discriminate. }
  destruct Hsn as [H1 H2]. destruct (snd (checked_of types t (nth_error data p))) as [|[|]]; try lia.
  specialize (H2 eq_refl). apply nth_error_Some in H2. lia.
Qed.

Lemma body_tri i P p : good types i -> tri any (fault (cpt_of P) (ty_id i) p) p (decode_body b r d i P).
Proof.
  intros Hg. unfold decode_body. apply pure_bind with (Q := fun x => lookup types (snd x) = Some (fst x) /\ snd x = ty_id i).
  - destruct i as [t id|id]; cbn [ty_id good] in *.
    + intros q e. cbn. auto.
    + intros q e. pose proof (resolve_pure id q e) as H. unfold bind. destruct (map_err PRegistry (resolve_ty r id) q e) as [[[t|x| |] q1] e1]; try exact I; [|exact H].
      destruct H as [-> H]. cbn. auto.
  - intros [t id] [Ht Hid]. cbn [fst snd] in *. subst id.
    assert (Hc : cpt_of (add_info P (info_from_ty t)) = cpt_of P) by (unfold cpt_of, add_info; destruct (info_is_empty (info_from_ty t)); reflexivity).
    rewrite <- Hc. apply checked_tri, Ht.
Qed.
End Step.

Lemma decode_tri fuel : forall i P p, good types i -> tri any (fault (cpt_of P) (ty_id i) p) p (decode b r fuel i P).
Proof.
  induction fuel as [|fuel IH]; intros i P p Hg; cbn [decode]; [intros Hp e; exact I|]. apply body_tri; [apply decode_sound, Hbytes|exact IH|exact Hg].
Qed.
End Fault.

Theorem decode_first_fault types data id pos x q : is_bytes data -> (pos <= List.length data)%nat ->
  decode_at types data id pos = (Err x, q) -> (forall y, x <> PRegistry y) -> fault types data false id pos x.
Proof.
  intros Hb Hp H Hx.
  pose proof (decode_tri types data Hb (E := unit) (decode_fuel (@slice_buffer unit data) (@portable unit types)) (Symbol id) propagated_new pos I Hp tt) as Ha.
  unfold decode_at, decode_as_type_at_position, decode_with_type in H.
  match type of H with context [decode ?a ?b ?c ?d ?e pos tt] => destruct (decode a b c d e pos tt) as [[o q1] e1] end. injection H as -> ->.
  destruct x; try exact Ha. destruct (Hx _ eq_refl).
Qed.
