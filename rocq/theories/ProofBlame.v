(** What an error of the decoder accuses (C61). *)
From Coq Require Import Lia ZifyBool ZifyNat ZifyN Relations.
From Verif Require Import Base Compact Types Indicators Decode Spec SpecReach SpecKinds SpecHusk SpecBlame ProofBase ProofCompact ProofTables ProofPeel ProofUtf8 ProofLeaf ProofRead ProofSpec ProofRel ProofHusk Api PropDecode.
Local Open Scope string_scope.
Local Open Scope list_scope.

Lemma compactable_shape types id t : compactable types id -> lookup types id = Some t ->
  (exists k, classify t = SpPer k) \/
  match def_of t with
  | Some (TPrimitive (PrU _)) => True
  | Some (TComposite []) => True
  | Some (TComposite [f]) => compactable types (f_ty f)
  | Some (TTuple []) => True
  | Some (TTuple [i]) => compactable types i
  | _ => False
  end.
Proof.
  intros H Ht. destruct H as [id t2 w Hl Hd|id t2 k Hl Hd|id t2 Hl Hd|id t2 f Hl Hd Hc|id t2 Hl Hd|id t2 i Hl Hd Hc]; assert (t2 = t) by congruence; subst t2.
  all: try (right; rewrite Hd; auto; fail). left. eauto.
Qed.

Lemma def_not_per t d k : def_of t = Some d -> classify t <> SpPer k.
Proof. unfold def_of. destruct (classify t); congruence. Qed.

Lemma not_compactable types id t d : lookup types id = Some t -> def_of t = Some d ->
  match d with
  | TPrimitive (PrU _) | TComposite [] | TComposite [_] | TTuple [] | TTuple [_] => False
  | _ => True
  end -> ~ compactable types id.
Proof.
  intros Hl Hd Hs H. destruct (compactable_shape _ _ _ H Hl) as [[k Hk]|Hk].
  - exact (def_not_per _ _ _ Hd Hk).
  - rewrite Hd in Hk. destruct d as [[|f [|]]|vs|el|len el|[|i [|]]|pr| |]; try contradiction. destruct pr; contradiction.
Qed.

Lemma not_compactable_special types id t : lookup types id = Some t ->
  match classify t with SpRaw _ | SpHash | SpEra => True | _ => False end -> ~ compactable types id.
Proof.
  intros Hl Hc H. destruct (compactable_shape _ _ _ H Hl) as [[k Hk]|Hk]; [rewrite Hk in Hc; exact Hc|].
  unfold def_of in Hk. destruct (classify t); contradiction.
Qed.

Lemma fixed_size_def t d : def_of t = Some d -> fixed_size t =
  match d with
  | TPrimitive PrBool => Some 1%nat
  | TPrimitive PrChar => Some 4%nat
  | TPrimitive (PrU w) => Some (usize w)
  | TPrimitive (PrI w) => Some (usize w)
  | TPrimitive PrU256 => Some 32%nat
  | TPrimitive PrI256 => Some 32%nat
  | _ => None
  end.
Proof. unfold fixed_size, def_of. intros H. destruct (classify t); inversion H; reflexivity. Qed.

Lemma counts_def t d w : def_of t = Some d ->
  match d with
  | TSequence _ => w = U32
  | TPrimitive PrStr => w = U32
  | TBitSequence _ _ => w = U32
  | TPrimitive (PrU w') => w = w'
  | _ => False
  end -> counts t w.
Proof. unfold counts, def_of. intros H. destruct (classify t); inversion H; auto. Qed.

Lemma needs_def t d : def_of t = Some d -> needs t = mentions d.
Proof. unfold needs. intros ->. reflexivity. Qed.

Lemma uint_text_name w : uint_name w = uint_text w.
Proof. destruct w; reflexivity. Qed.
Lemma per_text_name k : per_name k = part_text k.
Proof. destruct k; reflexivity. Qed.
Lemma bits_text_name w o : bitvec_name w o = bits_text w o.
Proof. destruct w, o; reflexivity. Qed.

Section Blame.
Variable types : list ty.
Variable data : bytes.
Hypothesis Hbytes : is_bytes data.
Variable root : N.
Context {E : Type}.
Local Notation L := (List.length data).
Local Notation b := (@slice_buffer E data).
Local Notation r := (@portable E types).
Local Notation need := (needed types root).

(** Cycles are dealt with elsewhere (C10). *)
Definition acc (p : nat) (x : parser_err) : Prop :=
  match x with
  | PRegistry (RInternal (CyclicMetadata i)) => need i
  | _ => accuses types data root p x
  end.

Lemma acc_le p q x : acc q x -> (p <= q)%nat -> acc p x.
Proof.
  intros H Hp. destruct x as [y|y|at_p|from|at_p name|at_p]; cbn [acc] in *; try (destruct y as [|y]; [|destruct y]); try exact H;
  match goal with H : accuses _ _ _ _ _ |- _ => inversion H; subst; econstructor; eauto; try lia end.
Qed.

Lemma needs_in id t d j : need id -> lookup types id = Some t -> def_of t = Some d -> In j (mentions d) -> need j.
Proof. intros Hn Ht Hd Hj. apply (Needed_for types root id t j Hn Ht). rewrite (needs_def _ _ Hd). exact Hj. Qed.

Definition blame {A} (Q : A -> Prop) (p : nat) (m : M E parser_err A) : Prop := (p <= L)%nat -> forall e,
  match m p e with
  | (Ok a, q, _) => (p <= q <= L)%nat /\ Q a
  | (Err x, _, _) => acc p x
  | _ => True
  end.

Definition any {A} (a : A) : Prop := True.

Lemma blame_bind {A B} (Q : A -> Prop) (R : B -> Prop) p (m : M E parser_err A) (f : A -> M E parser_err B) :
  blame Q p m -> (forall a q, Q a -> (p <= q)%nat -> blame R q (f a)) -> blame R p (bind m f).
Proof.
  intros Hm Hf Hp e. specialize (Hm Hp e). unfold bind. destruct (m p e) as [[[a|x| |] q] e1]; try exact I; [|exact Hm].
  destruct Hm as [H1 H2]. specialize (Hf a q H2 (proj1 H1) (proj2 H1) e1). destruct (f a q e1) as [[[c|x| |] q2] e2]; try exact I.
  - split; [lia|apply Hf].
  - apply (acc_le _ _ _ Hf). lia.
Qed.

Lemma blame_ret {A} (Q : A -> Prop) p a : Q a -> blame Q p (ret a).
Proof. intros H Hp e. cbn. split; [lia|exact H]. Qed.

Lemma blame_fail {A} (Q : A -> Prop) p x : acc p x -> blame Q p (@fail E parser_err A x).
Proof. intros H Hp e. exact H. Qed.

Lemma blame_get {A} (Q : A -> Prop) p (f : nat -> M E parser_err A) : blame Q p (f p) -> blame Q p (bind get_pos f).
Proof. intros H. exact H. Qed.

Lemma blame_set {A} (Q : A -> Prop) p q (m : M E parser_err A) : (p <= q <= L)%nat -> blame Q q m -> blame Q p (set_pos q ;; m).
Proof.
  intros Hq H Hp e. unfold bind, set_pos. specialize (H (proj2 Hq) e). destruct (m q e) as [[[a|x| |] q2] e2]; try exact I.
  - split; [lia|apply H].
  - apply (acc_le _ _ _ H). lia.
Qed.

(** Computations that do not touch the data. *)
Definition still {A} (Q : A -> Prop) (p : nat) (m : M E parser_err A) : Prop := (p <= L)%nat -> forall e,
  match m p e with
  | (Ok a, q, _) => q = p /\ Q a
  | (Err x, _, _) => acc p x
  | _ => True
  end.

Lemma still_bind {A B} (Q : A -> Prop) (R : B -> Prop) p (m : M E parser_err A) (f : A -> M E parser_err B) :
  still Q p m -> (forall a, Q a -> blame R p (f a)) -> blame R p (bind m f).
Proof.
  intros Hm Hf Hp e. specialize (Hm Hp e). unfold bind. destruct (m p e) as [[[a|x| |] q] e1]; try exact I; [|exact Hm].
  destruct Hm as [-> H2]. exact (Hf a H2 Hp e1).
Qed.

Lemma blame_weak {A} (Q R : A -> Prop) p (m : M E parser_err A) : blame Q p m -> (forall a, Q a -> R a) -> blame R p m.
Proof. intros H HQ Hp e. specialize (H Hp e). destruct (m p e) as [[[a|x| |] q] e1]; auto. destruct H; auto. Qed.

(** Reading at [s]; the type asks for these bytes. *)
Lemma read_blame id t s n p : need id -> lookup types id = Some t -> asks types data t s n -> (p <= s <= L)%nat ->
  blame (fun l => l = slice data s (N.to_nat n) /\ (s + N.to_nat n <= L)%nat) p (read_slice b s n).
Proof.
  intros Hn Ht Ha Hs Hp e. unfold read_slice. cbn [rd slice_buffer]. unfold slice_rd.
  destruct (L <? s)%nat eqn:H1; [lia|]. destruct (N.of_nat L <? N.of_nat s + n)%N eqn:H2.
  - cbn [acc]. eapply Accuses_short; eauto; lia.
  - split; [lia|]. split; [reflexivity|lia].
Qed.

Lemma skipn_slice s n : (s + n <= L)%nat -> skipn s data = slice data s n ++ skipn (s + n) data.
Proof. intros H. unfold slice. rewrite <- (firstn_skipn n (skipn s data)) at 1. rewrite skipn_skipn. do 2 f_equal. lia. Qed.

Lemma find_blame id t w p : need id -> lookup types id = Some t -> counts t w ->
  blame (fun x => fits w (fst x) = true /\ snd x = (p + List.length (compact_enc (fst x)))%nat /\ (p < snd x <= L)%nat /\
                  slice data p (List.length (compact_enc (fst x))) = compact_enc (fst x)) p (find_compact w b p).
Proof.
  intros Hn Ht Hc Hp e. destruct (find_compact_total data Hbytes w p p e) as [(n & p' & H)|(x & H & Hx & Hno)]; rewrite H.
  - split; [lia|]. apply find_compact_ok in H; [|exact Hbytes]. destruct H as (_ & _ & Hf & Hp' & Hl & Hsl). cbn [fst snd].
    pose proof (compact_enc_length w n Hf). split; [exact Hf|]. split; [exact Hp'|]. split; [lia|exact Hsl].
  - destruct Hx as [-> | [-> Hx] ]; [|lia]. cbn [acc]. eapply Accuses_compact; eauto. intros v rest Hf He. apply (Hno v Hf).
    + pose proof (f_equal (@List.length N) He) as Hl. rewrite skipn_length, app_length in Hl. lia.
    + unfold slice. rewrite He. apply firstn_app_exact.
Qed.

Lemma get_compact_blame id t w p : need id -> lookup types id = Some t -> counts t w -> blame any p (get_compact w b).
Proof.
  intros Hn Ht Hc. unfold get_compact. apply blame_get. intros Hp e. unfold bind.
  pose proof (find_blame id t w p Hn Ht Hc Hp e) as H. destruct (find_compact w b p p e) as [[[ [n s]|x| |] q] e1]; try exact I; [|exact H].
  cbn [fst snd] in *. unfold set_pos, ret. split; [lia|exact I].
Qed.

Lemma cut_blame {A} id t n name (f : bytes -> option A) p : need id -> lookup types id = Some t ->
  (forall s, asks types data t s n) ->
  (forall l rest, is_bytes l -> List.length l = N.to_nat n -> f l = None -> wrong types t name (l ++ rest)) ->
  blame any p (cut_and_decode b n name f).
Proof.
  intros Hn Ht Ha Hw. unfold cut_and_decode. apply blame_get. intros Hp e. unfold bind at 1. unfold read_exact, bind at 1, get_pos, bind at 1.
  pose proof (read_blame id t p n p Hn Ht (Ha p) ltac:(lia) Hp e) as H. destruct (read_slice b p n p e) as [[[l|x| |] q] e1] eqn:Hr; try exact I; [|exact H].
  apply read_slice_ok in Hr. destruct Hr as (-> & -> & Hl & ->). destruct (_ =? n)%N; [|exact I]. unfold ret at 1.
  destruct (f (slice data p (N.to_nat n))) as [a|] eqn:Hf.
  - unfold shift_pos, bind, get_pos, set_pos, ret. split; [lia|exact I].
  - cbn [fail acc]. eapply Accuses_value; eauto. rewrite (skipn_slice p (N.to_nat n)) by lia. apply Hw; [|apply slice_length; lia|exact Hf].
    apply is_bytes_slice, Hbytes.
Qed.

(** The compact around the current type, if any, has no compact form unless the current type has. *)
Definition cinv (cpt : option N) (id : N) : Prop :=
  match cpt with
  | None => True
  | Some i => exists t inner, need i /\ lookup types i = Some t /\ def_of t = Some (TCompact inner) /\ (compactable types inner -> compactable types id)
  end.

Lemma inside_acc c i id p : compact_at c = Some i -> cinv (compact_at c) id -> ~ compactable types id ->
  acc p (PRegistry (RInternal (UnexpectedCompactInsides i))).
Proof.
  intros Hc H Hn. rewrite Hc in H. destruct H as (t & inner & H1 & H2 & H3 & H4). cbn [acc]. eapply Accuses_inside; eauto.
Qed.

Lemma reject_blame c id p : cinv (compact_at c) id -> ~ compactable types id -> still (fun _ => compact_at c = None) p (@reject_compact_m E c).
Proof.
  intros H Hn. unfold reject_compact_m, reject_compact. destruct (compact_at c) as [i|] eqn:Hc.
  - intros Hp e. unfold map_err, lift, fail. apply (inside_acc c i id p Hc); [rewrite Hc; exact H|exact Hn].
  - intros Hp e. cbn. split; reflexivity.
Qed.

Lemma block_blame {A} (Q : A -> Prop) c id p (m : M E parser_err A) : cinv (compact_at c) id -> ~ compactable types id ->
  blame Q p m -> blame Q p (block_compact c m).
Proof.
  intros H Hn Hm. unfold block_compact. destruct (compact_at c) as [i|] eqn:Hc; [|exact Hm]. apply blame_fail.
  apply (inside_acc c i id p Hc); [rewrite Hc; exact H|exact Hn].
Qed.

Ltac step := apply (blame_bind any any); [|intros; try (apply blame_ret; exact I)].

Lemma resolve_blame id p : need id -> still (fun t => lookup types id = Some t) p (map_err PRegistry (resolve_ty r id)).
Proof.
  intros Hn Hp e. unfold map_err. pose proof (resolve_total types id p e) as H. destruct (lookup types id) as [t|] eqn:Hl; rewrite H; cbv beta iota.
  - split; reflexivity.
  - cbn [acc]. apply Accuses_missing; auto.
Qed.

(** *** Leaves *)

Lemma era_blame id t p : need id -> lookup types id = Some t -> classify t = SpEra -> blame any p (special_case_era b).
Proof.
  intros Hn Ht Hc. unfold special_case_era. apply blame_get. intros Hp e. unfold bind at 1.
  pose proof (read_blame id t p 1 p Hn Ht ltac:(apply Asks_era; auto) ltac:(lia) Hp e) as H.
  destruct (read_slice b p 1 p e) as [[[l1|x| |] q] e1] eqn:Hr; try exact I; [|exact H].
  apply read_slice_ok in Hr. destruct Hr as (-> & -> & Hl1 & ->). change (N.to_nat 1) with 1%nat in *.
  destruct (era_decode_all (slice data p 1)) eqn:He1.
  { unfold bind, set_pos, ret. split; [lia|exact I]. }
  unfold bind. pose proof (read_blame id t p 2 p Hn Ht ltac:(apply Asks_era; auto) ltac:(lia) Hp e) as H2.
  destruct (read_slice b p 2 p e) as [[[l2|x| |] q] e2] eqn:Hr; try exact I; [|exact H2].
  apply read_slice_ok in Hr. destruct Hr as (-> & -> & Hl2 & ->). change (N.to_nat 2) with 2%nat in *.
  destruct (era_decode_all (slice data p 2)) eqn:He2.
  { unfold set_pos, ret. split; [lia|exact I]. }
  cbn [fail acc]. eapply Accuses_value; eauto.
  assert (Hsl : List.length (slice data p 2) = 2%nat) by (apply slice_length; lia).
  assert (Hs1 : slice data p 1 = firstn 1 (slice data p 2)).
  { unfold slice. rewrite firstn_firstn. reflexivity. }
  assert (Hb2 : is_bytes (slice data p 2)) by (apply is_bytes_slice, Hbytes).
  rewrite (skipn_slice p 2) by lia.
  destruct (slice data p 2) as [|x [|y [|]]]; cbn in Hsl; try lia. rewrite Hs1 in He1. cbn [firstn era_decode_all app] in *.
  apply Wrong_era; [exact Hc|]. intros v rest Hv Heq.
  destruct (N.eqb_spec x 0) as [->|Hx]; [discriminate|].
  destruct (era_enc_shape v Hv) as [[-> Hs]|(b0 & b1 & Hs & _ & _ & _ & Hd)]; rewrite Hs in Heq; cbn [app] in Heq.
  - injection Heq as Hx0 _. contradiction.
  - injection Heq as -> -> _. congruence.
Qed.

Lemma str_blame id t h p : need id -> lookup types id = Some t -> def_of t = Some (TPrimitive PrStr) -> blame any p (decode_str b h).
Proof.
  intros Hn Ht Hd. unfold decode_str. apply blame_get. intros Hp e. unfold bind at 1.
  pose proof (find_blame id t U32 p Hn Ht (counts_def _ _ U32 Hd eq_refl) Hp e) as H.
  destruct (find_compact U32 b p p e) as [[[ [n s]|x| |] q] e1] eqn:Hfind; try exact I; [|exact H].
  apply find_compact_ok in Hfind; [|exact Hbytes]. destruct Hfind as (-> & -> & _). cbn [fst snd] in *. destruct H as (_ & Hf & Hs & Hs2 & Hsl).
  unfold bind at 1. pose proof (read_blame id t s n p Hn Ht ltac:(eapply Asks_text; eauto) ltac:(lia) Hp e) as H.
  destruct (read_slice b s n p e) as [[[l|x| |] q] e2] eqn:Hr; try exact I; [|exact H].
  apply read_slice_ok in Hr. destruct Hr as (-> & -> & Hl & ->).
  destruct (utf8_valid (slice data s (N.to_nat n))) eqn:Hu.
  { unfold bind, set_pos, ret. split; [lia|exact I]. }
  cbn [fail acc]. eapply Accuses_value; eauto.
  rewrite (skipn_slice p (List.length (compact_enc n))) by lia. rewrite Hsl. rewrite <- Hs.
  rewrite (skipn_slice s (N.to_nat n)) by lia.
  assert (Hlen : N.of_nat (List.length (slice data s (N.to_nat n))) = n) by (rewrite slice_length; lia).
  rewrite <- Hlen at 1. apply Wrong_text; [exact Hd|rewrite Hlen; exact Hf|].
  intros cs Hcs He. assert (utf8_valid (slice data s (N.to_nat n)) = true) by (apply utf8_valid_spec; eauto). congruence.
Qed.

Lemma wrong_bits store order w o t l n rest : def_of t = Some (TBitSequence store order) -> bit_store types store = Some w ->
  bit_order_of types order = Some o -> is_bytes l -> fits U32 n = true ->
  List.length rest = (N.to_nat (store_len w n) * usize w)%nat -> l = compact_enc n ++ rest ->
  bitvec_decode_all w o l = None -> (max_bits < n)%N.
Proof.
  intros Hd Hw Ho Hb Hf Hl -> H. destruct (N.le_gt_cases n max_bits) as [Hn|Hn]; [exfalso|exact Hn].
  unfold bitvec_decode_all in H. rewrite compact_decode_enc in H by exact Hf.
  unfold max_bits in Hn. change (2 ^ 29 - 1)%N with 536870911%N in Hn.
  replace (MAX_BITS <? n)%N with false in H by (unfold MAX_BITS; lia).
  rewrite (compact_size_enc U32) in H by exact Hf. rewrite skipn_app_exact in H. rewrite ceil_div_store in H. cbv zeta in H.
  rewrite Hl, Nat.eqb_refl in H. discriminate.
Qed.

Lemma bits_blame id t store order w p : need id -> lookup types id = Some t -> def_of t = Some (TBitSequence store order) ->
  bit_store types store = Some w -> blame any p (into_bitvec_decode b (N.of_nat (usize w))).
Proof.
  intros Hn Ht Hd Hw. unfold into_bitvec_decode, bitvec_positions. apply blame_get. intros Hp e. unfold bind at 1. unfold bind at 1.
  pose proof (find_blame id t U32 p Hn Ht (counts_def _ _ U32 Hd eq_refl) Hp e) as H.
  destruct (find_compact U32 b p p e) as [[[ [n s]|x| |] q] e1] eqn:Hfind; try exact I; [|exact H].
  apply find_compact_ok in Hfind; [|exact Hbytes]. destruct Hfind as (-> & -> & _). cbn [fst snd] in *. destruct H as (_ & Hf & Hs & Hs2 & Hsl).
  unfold ret at 1. cbv beta iota. unfold bind at 1.
  match goal with |- context [read_slice b p ?k p e] => set (ml := k) end.
  assert (Ha : asks types data t p ml).
  { eapply Asks_bits; eauto. unfold ml. rewrite bitvec_elements_store. unfold store_len. f_equal. lia. }
  pose proof (read_blame id t p ml p Hn Ht Ha ltac:(lia) Hp e) as H.
  destruct (read_slice b p ml p e) as [[[l|x| |] q] e2] eqn:Hr; try exact I; [|exact H].
  apply read_slice_ok in Hr. destruct Hr as (-> & -> & Hl & ->). unfold bind, set_pos, ret. split; [lia|exact I].
Qed.

Lemma bit_sequence_blame store order id t p : need id -> lookup types id = Some t -> def_of t = Some (TBitSequence store order) ->
  blame any p (decode_bit_sequence b r store order id).
Proof.
  intros Hn Ht Hd. assert (Hno : need order) by (apply (needs_in id t _ _ Hn Ht Hd); cbn; auto).
  assert (Hns : need store) by (apply (needs_in id t _ _ Hn Ht Hd); cbn; auto).
  unfold decode_bit_sequence. apply blame_get.
  apply still_bind with (Q := fun o => bit_order_of types order = Some o).
  { intros Hp e. unfold map_err. destruct (order_exact types order id p e) as (o & Ho & ->). destruct Ho as [Hl|ot fs Hl Hdd Hlast|ot fs Hl Hdd Hlast|ot Hl Hother].
    - cbn [acc]. apply Accuses_missing; auto.
    - split; [reflexivity|]. unfold bit_order_of. rewrite Hl. destruct ot as [pa0 pr0 df0 do0]. cbn [t_def t_path] in *. rewrite Hdd, Hlast. reflexivity.
    - split; [reflexivity|]. unfold bit_order_of. rewrite Hl. destruct ot as [pa0 pr0 df0 do0]. cbn [t_def t_path] in *. rewrite Hdd, Hlast. reflexivity.
    - cbn [acc]. eapply Accuses_order; eauto; [congruence|]. unfold bit_order_of. rewrite Hl. destruct ot as [path pr0 df do0]. cbn [t_def t_path] in *.
      destruct df; try reflexivity. destruct path as [|s path]; [reflexivity|]. destruct (Hother _ eq_refl ltac:(discriminate)) as [H1 H2].
      rewrite (proj2 (String.eqb_neq _ _) H1), (proj2 (String.eqb_neq _ _) H2). reflexivity. }
  intros o Ho. eapply still_bind; [apply resolve_blame, Hns|]. intros st Hst.
  assert (Hbad : match t_def st with TPrimitive (PrU U128) => True | TPrimitive (PrU _) => False | _ => True end ->
     blame any p (@fail E parser_err pdata (PRegistry (RInternal (NotBitStoreType id))))).
  { intros Hb. apply blame_fail. cbn [acc]. eapply Accuses_store; eauto; [congruence|]. unfold bit_store. rewrite Hst.
    destruct st as [pa0 pr0 df do0]. cbn [t_def] in Hb. destruct df as [| | | | |x| |]; try reflexivity. destruct x as [| | |w| | |]; try reflexivity. destruct w; try contradiction. reflexivity. }
  assert (Hgood : forall w, bit_store types store = Some w ->
     blame any p (do l <- into_bitvec_decode b (N.of_nat (usize w)); match bitvec_decode_all w o l with Some bits => ret (DBitVec w o bits) | None => fail (TypeFailure p (bitvec_name w o)) end)).
  { intros w Hw Hp e. unfold bind. pose proof (bits_blame id t store order w p Hn Ht Hd Hw Hp e) as H.
    destruct (into_bitvec_decode b (N.of_nat (usize w)) p e) as [[[l|x| |] q3] e3] eqn:Hi; try exact I; [|exact H].
    destruct (bitvec_decode_all w o l) eqn:Hdec; [split; [lia|exact I]|]. cbn [fail acc].
    apply into_bitvec_decode_ok in Hi; [|exact Hbytes]. destruct Hi as (n & Hf & -> & -> & Hh & rest & Hl & Hlen).
    assert (Hlb : is_bytes l) by (eapply has_is_bytes; eauto).
    pose proof (wrong_bits store order w o t l n rest Hd Hw Ho Hlb Hf Hlen Hl Hdec) as Hm.
    rewrite bits_text_name. apply (Accuses_value types data root p id t p); auto. unfold has in Hh. rewrite Hl in Hh.
    assert (Hle : (p + List.length (compact_enc n ++ rest) <= L)%nat) by (rewrite <- Hl; lia).
    rewrite (skipn_slice p _ Hle), Hh, <- app_assoc. eapply Wrong_bits; eauto. }
  destruct (t_def st) as [| | | | |x| |] eqn:Hdef; try (apply Hbad; exact I). destruct x as [| | |w| | |]; try (apply Hbad; exact I).
  assert (Hw : w <> U128 -> bit_store types store = Some w).
  { intros Hw. unfold bit_store. rewrite Hst. destruct st as [pa0 pr0 df do0]. cbn [t_def] in Hdef. subst df. destruct w; try reflexivity. congruence. }
  destruct w; try (apply Hbad; exact I); apply Hgood, Hw; discriminate.
Qed.

Lemma prim_blame id t x c p : need id -> lookup types id = Some t -> def_of t = Some (TPrimitive x) -> cinv (compact_at c) id ->
  blame any p (decode_primitive b x c).
Proof.
  intros Hn Ht Hd Hc.
  assert (Hsz : forall k s, fixed_size t = Some k -> asks types data t s (N.of_nat k)) by (intros; eapply Asks_size; eauto).
  pose proof (fixed_size_def _ _ Hd) as Hfs. pose proof (not_compactable _ _ _ _ Ht Hd) as Hnc.
  destruct x as [| | |w| |w|]; cbn [decode_primitive].
  - apply (block_blame _ c id); [exact Hc|apply Hnc; exact I|]. step. apply (cut_blame id t); auto; [intros; apply (Hsz 1%nat), Hfs|].
    intros l rest Hl Hlen Hf. change (N.to_nat 1) with 1%nat in Hlen. destruct l as [|x [|]]; try discriminate. cbn [decode_bool app] in *.
    apply Wrong_bool; [exact Hd| |]; intros ->; discriminate.
  - apply (block_blame _ c id); [exact Hc|apply Hnc; exact I|]. step. apply (cut_blame id t); auto; [intros; apply (Hsz 4%nat), Hfs|].
    intros l rest Hl Hlen Hf. change (N.to_nat 4) with 4%nat in Hlen. destruct (char_valid (le_val l)) eqn:Hv; [discriminate|].
    rewrite <- (le_bytes_le_val l Hl). rewrite Hlen. apply Wrong_char; [exact Hd| |rewrite <- char_valid_scalar; exact Hv].
    pose proof (le_val_bound l Hl) as Hbd. rewrite Hlen in Hbd. change (256 ^ N.of_nat 4)%N with (2 ^ 32)%N in Hbd. exact Hbd.
  - eapply still_bind; [apply (reject_blame c id); [exact Hc|apply Hnc; exact I]|]. intros u Hu; clear u Hu. eapply str_blame; eauto.
  - unfold parse_uint. step. destruct (compact_at c); [eapply get_compact_blame; eauto; exact (counts_def _ _ w Hd eq_refl)|].
    unfold cut_uint. apply (cut_blame id t); auto. discriminate.
  - apply (block_blame _ c id); [exact Hc|apply Hnc; exact I|]. step. apply (cut_blame id t); auto; [intros; apply (Hsz 32%nat), Hfs|discriminate].
  - apply (block_blame _ c id); [exact Hc|apply Hnc; exact I|]. step. apply (cut_blame id t); auto; discriminate.
  - apply (block_blame _ c id); [exact Hc|apply Hnc; exact I|]. step. apply (cut_blame id t); auto; [intros; apply (Hsz 32%nat), Hfs|discriminate].
Qed.

Lemma per_blame id t k c p : need id -> lookup types id = Some t -> classify t = SpPer k -> blame any p (parse_per b k c).
Proof.
  intros Hn Ht Hk. unfold parse_per. step. destruct (compact_at c).
  - step. eapply get_compact_blame; eauto. unfold counts. rewrite Hk. destruct k; reflexivity.
  - unfold cut_per. rewrite per_text_name. assert (Hw : per_width k = part_width k) by (destruct k; reflexivity). rewrite Hw.
    apply (cut_blame id t); auto.
    + intros s. eapply Asks_size; [|reflexivity]. unfold fixed_size. rewrite Hk. reflexivity.
    + intros l rest Hl Hlen Hf. rewrite Nat2N.id in Hlen. destruct (N.leb_spec (le_val l) (per_max k)) as [Hv|Hv]; [discriminate|].
      rewrite per_max_whole in Hv. rewrite <- (le_bytes_le_val l Hl). rewrite Hlen. eapply Wrong_part; eauto. rewrite fits_pow.
      pose proof (le_val_bound l Hl) as Hbd. rewrite Hlen in Hbd. lia.
Qed.

Lemma fixed_blame id t k c p : need id -> lookup types id = Some t -> (forall s, asks types data t s (N.of_nat (raw_len k))) ->
  cinv (compact_at c) id -> ~ compactable types id -> blame any p (parse_fixed b k c).
Proof.
  intros Hn Ht Ha Hc Hnc. unfold parse_fixed. apply (block_blame _ c id); auto. step. unfold cut_fixed.
  rewrite (fixed_len_raw k). apply (cut_blame id t); auto. discriminate.
Qed.

(** *** Elements *)

Lemma reaches_blame seen cpt h id o : reaches types seen cpt h id o -> need id -> cinv cpt id ->
  match o with
  | inl x => need (hu_id x) /\ lookup types (hu_id x) = Some (hu_ty x) /\ cinv (compact_at (hu_checker x)) (hu_id x)
  | inr y => forall p, acc p (PRegistry y)
  end.
Proof.
  assert (Hout : forall l o, match o with
      | inl x => need (hu_id x) /\ lookup types (hu_id x) = Some (hu_ty x) /\ cinv (compact_at (hu_checker x)) (hu_id x)
      | inr y => forall p, acc p (PRegistry y) end ->
     match outside l o with
      | inl x => need (hu_id x) /\ lookup types (hu_id x) = Some (hu_ty x) /\ cinv (compact_at (hu_checker x)) (hu_id x)
      | inr y => forall p, acc p (PRegistry y) end) by (intros l [x|x]; exact (fun H => H)).
  induction 1; intros Hn Hc.
  - intros p. exact Hn.
  - intros p. cbn [acc]. apply Accuses_missing; auto.
  - cbn [hu_id hu_ty hu_checker compact_at]. auto.
  - apply Hout. match goal with H : transparent _ = Some (_, false) |- _ => destruct (transparent_false _ _ H) as (f2 & Hd2 & Hf2 & Hdef) end.
    match goal with IH : need _ -> _ -> _ |- _ => apply IH end.
    + eapply needs_in; eauto. cbn. auto.
    + destruct cpt as [i|]; [|exact I]. destruct Hc as (ti & inner & K2 & K3 & K4 & K5). exists ti, inner. repeat split; auto.
      intros Hcp. specialize (K5 Hcp). match goal with Hl : lookup types id = Some t |- _ => destruct (compactable_shape _ _ _ K5 Hl) as [[k Hk]|Hk] end.
      * exfalso. exact (def_not_per _ _ _ Hdef Hk).
      * rewrite Hdef in Hk. rewrite Hf2. exact Hk.
  - intros p. subst cpt. destruct Hc as (ti & inner2 & K3 & K4 & K5 & K6). cbn [acc]. eapply Accuses_inside; eauto. intros Hcp. specialize (K6 Hcp).
    match goal with H : transparent _ = Some (_, true) |- _ => destruct (transparent_true _ _ H) as (Hd2 & Hdef) end.
    revert K6. eapply not_compactable; eauto. exact I.
  - apply Hout. match goal with H : transparent _ = Some (_, true) |- _ => destruct (transparent_true _ _ H) as (Hd2 & Hdef) end.
    match goal with IH : need _ -> _ -> _ |- _ => apply IH end.
    + eapply needs_in; eauto. cbn. auto.
    + exists t, inner. auto.
Qed.

Lemma husk_blame id c p : need id -> still (fun hu => need (hu_id hu) /\ lookup types (hu_id hu) = Some (hu_ty hu) /\ cinv (compact_at (hu_checker hu)) (hu_id hu)) p
  (map_err PRegistry (husk_type r id c)).
Proof.
  intros Hn Hp e. unfold map_err. destruct (husk_exact types id c p e) as (o & Ho & ->). pose proof (reaches_blame _ _ _ _ _ Ho Hn I) as H.
  destruct o as [x|x]; [auto|apply H].
Qed.

(** *** The decoder *)

Section Step.
Variable d : ty_input -> propagated -> M E parser_err (ext pdata).

(** What the decoder is given. *)
Definition given (i : ty_input) : N := match i with Resolved _ id => id | Symbol id => id end.
Definition fine (i : ty_input) (P : propagated) : Prop :=
  need (given i) /\ match i with Resolved t id => lookup types id = Some t | Symbol _ => True end /\
  cinv (compact_at (checker_of P)) (given i).

Hypothesis Hd : forall i P p, fine i P -> blame any p (d i P).

Lemma check_id_acc c id : match check_id c id with inl c1 => compact_at c1 = compact_at c | inr x => x = CyclicMetadata id end.
Proof. unfold check_id. destruct (existsb _ _); reflexivity. Qed.

Lemma field_still c f p : need (f_ty f) -> cinv (compact_at c) (f_ty f) -> still (fun P => fine (Symbol (f_ty f)) P) p (@lift_p E _ (for_field c f)).
Proof.
  intros Hn Hc Hp e. unfold for_field, update_for_field.
  set (c1 := match c_hint c with HNone => _ | _ => c end). assert (Hc1 : compact_at c1 = compact_at c) by (unfold c1; destruct (c_hint c); reflexivity).
  pose proof (check_id_acc c1 (f_ty f)) as H. destruct (check_id c1 (f_ty f)) as [c2|x].
  - unfold lift_p, map_err, lift, ret. split; [reflexivity|]. split; [exact Hn|]. split; [exact I|]. cbn [with_checker checker_of given]. rewrite H, Hc1. exact Hc.
  - subst x. exact Hn.
Qed.

Lemma fields_loop_blame fs c : (forall f, In f fs -> need (f_ty f) /\ cinv (compact_at c) (f_ty f)) -> forall p, blame any p (fields_loop d fs c).
Proof.
  induction fs as [|f fs IH]; intros Hf p; cbn [fields_loop]; [apply blame_ret; exact I|].
  destruct (Hf f (or_introl eq_refl)) as [H1 H2]. eapply still_bind; [apply field_still; assumption|]. intros P HP.
  eapply blame_bind; [apply Hd, HP|]. intros x q _ Hq. step. apply IH. intros g Hg. apply Hf. right. exact Hg.
Qed.

Lemma fields_blame id fs c p : (forall f, In f fs -> need (f_ty f)) -> cinv (compact_at c) id ->
  (compact_at c <> None -> match fs with _ :: _ :: _ => ~ compactable types id | [f] => compactable types id -> compactable types (f_ty f) | [] => True end) ->
  blame any p (decode_fields d fs c).
Proof.
  intros Hn Hc Hs. unfold decode_fields. destruct fs as [|f [|g fs]].
  - apply fields_loop_blame. intros f [].
  - apply fields_loop_blame. intros f2 [<-|[]]. split; [apply Hn; left; reflexivity|].
    destruct (compact_at c) as [i|]; [|exact I]. specialize (Hs ltac:(discriminate)). destruct Hc as (ti & inner & H2 & H3 & H4 & H5). exists ti, inner. repeat split; auto.
  - apply still_bind with (Q := fun _ => compact_at c = None).
    + destruct (compact_at c) as [i|] eqn:Hca.
      * specialize (Hs ltac:(discriminate)). pose proof (reject_blame c id p) as H. rewrite Hca in H. apply H; assumption.
      * intros Hp e. unfold reject_compact_m, reject_compact. rewrite Hca. split; reflexivity.
    + intros u Hno; cbv beta in Hno. apply fields_loop_blame. intros f2 Hf2. split; [apply Hn, Hf2|].
      cbn [forget_hint compact_at]. rewrite Hno. exact I.
Qed.

Lemma pick_still id t vs p : need id -> lookup types id = Some t -> def_of t = Some (TVariant vs) ->
  still (fun v => In v vs /\ (p < L)%nat) p (pick_variant b vs p).
Proof.
  intros Hn Ht Hdef Hp e. pose proof (pick_variant_total (E := E) data vs p p e) as H. destruct (nth_error data p) as [i|] eqn:Hi.
  - assert (Hlt : (p < L)%nat) by (apply nth_error_Some; congruence). destruct (by_index vs i) as [v|] eqn:Hv; rewrite H.
    + split; [reflexivity|]. split; [|exact Hlt]. unfold by_index in Hv. apply find_some in Hv. apply Hv.
    + cbn [acc]. eapply Accuses_index; eauto. intros v Hin He. unfold by_index in Hv.
      pose proof (find_none _ _ Hv v Hin) as Hf. cbv beta in Hf. lia.
  - clear H. unfold pick_variant, bind, read_byte, bind. apply nth_error_None in Hi.
    pose proof (read_blame id t p 1 p Hn Ht ltac:(eapply Asks_index; eauto) ltac:(lia) Hp e) as H.
    destruct (read_slice b p 1 p e) as [[[l|x| |] q] e1]; try exact I; [|exact H]. destruct H as (_ & _ & H). lia.
Qed.

Lemma variant_blame id t vs p : need id -> lookup types id = Some t -> def_of t = Some (TVariant vs) -> blame any p (decode_variant b d vs).
Proof.
  intros Hn Ht Hdef. unfold decode_variant. apply blame_get. eapply still_bind; [eapply pick_still; eauto|]. intros v [Hv Hp].
  apply blame_set; [change ENUM_INDEX_ENCODED_LEN with 1%nat; lia|]. step. apply (fields_blame 0).
  - intros f Hf. eapply needs_in; eauto. cbn [mentions]. apply in_flat_map. exists v. split; [exact Hv|]. apply in_map, Hf.
  - exact I.
  - cbn. congruence.
Qed.

Lemma elements_loop_blame hu : need (hu_id hu) -> lookup types (hu_id hu) = Some (hu_ty hu) -> cinv (compact_at (hu_checker hu)) (hu_id hu) ->
  forall n p, blame any p (elements_loop d n hu).
Proof.
  intros H1 H2 H3. induction n as [|n IH]; intros p; cbn [elements_loop]; [apply blame_ret; exact I|].
  eapply blame_bind; [apply Hd; split; [exact H1|]; split; [exact H2|exact H3]|]. intros x q _ Hq. step. apply IH.
Qed.

Lemma elements_blame id elem n P p : need elem -> cinv (compact_at (checker_of P)) id -> ~ compactable types id ->
  blame any p (decode_elements_set r d elem n P).
Proof.
  intros Hn Hc Hno. unfold decode_elements_set. eapply still_bind; [apply (reject_blame _ id); assumption|]. intros u Hu; clear u Hu.
  eapply still_bind; [apply husk_blame, Hn|]. intros hu (H1 & H2 & H3). destruct (n =? 0)%N; [apply blame_ret; exact I|].
  step. apply elements_loop_blame; assumption.
Qed.

Lemma tuple_loop_blame els c : (forall i, In i els -> need i /\ cinv (compact_at c) i) -> forall p, blame any p (tuple_loop r d els c).
Proof.
  induction els as [|i els IH]; intros Hf p; cbn [tuple_loop]; [apply blame_ret; exact I|].
  destruct (Hf i (or_introl eq_refl)) as [H1 H2]. eapply still_bind; [apply resolve_blame, H1|]. intros t Ht.
  apply still_bind with (Q := fun P => fine (Resolved t i) P).
  { intros Hp e. unfold for_ty, update_for_ty. pose proof (check_id_acc c i) as H. destruct (check_id c i) as [c2|x].
    - unfold lift_p, map_err, lift, ret. split; [reflexivity|]. split; [exact H1|]. split; [exact Ht|]. cbn [with_checker checker_of given].
      unfold update_from_path. destruct (c_hint c2); cbn [with_hint compact_at]; rewrite H; exact H2.
    - subst x. exact H1. }
  intros P HP. eapply blame_bind; [apply Hd, HP|]. intros x q _ Hq. step. apply IH. intros j Hj. apply Hf. right. exact Hj.
Qed.

Lemma plain_blame t id P p : need id -> lookup types id = Some t -> def_of t = Some (t_def t) -> cinv (compact_at (checker_of P)) id ->
  blame any p (decode_plain b r d t id P).
Proof.
  intros Hn Ht Hdef Hc. pose proof (fun j => needs_in id t _ j Hn Ht Hdef) as Hm. pose proof (not_compactable _ _ _ _ Ht Hdef) as Hnc.
  pose proof (fun H => compactable_shape _ _ _ H Ht) as Hsh.
  assert (Hper : forall k, classify t <> SpPer k) by (intros k; exact (def_not_per _ _ k Hdef)).
  unfold decode_plain. destruct (t_def t) as [fs|vs|el|len el|ids|x|inner|store order] eqn:Htd; cbn [mentions] in Hm.
  - step. apply (fields_blame id); [intros f Hf; apply Hm, in_map, Hf|exact Hc|]. intros _. destruct fs as [|f [|g fs]]; [exact I| |apply Hnc; exact I].
    intros H. destruct (Hsh H) as [[k Hk]|Hk]; [destruct (Hper k Hk)|]. rewrite Hdef in Hk. exact Hk.
  - eapply still_bind; [apply (reject_blame _ id); [exact Hc|apply Hnc; exact I]|]. intros u Hu; clear u Hu. destruct vs as [|v vs]; [apply blame_ret; exact I|].
    step. eapply variant_blame; eauto.
  - eapply blame_bind; [eapply get_compact_blame; eauto; exact (counts_def _ _ U32 Hdef eq_refl)|]. intros n q _ Hq.
    apply (elements_blame id); [apply Hm; left; reflexivity|exact Hc|apply Hnc; exact I].
  - apply (elements_blame id); [apply Hm; left; reflexivity|exact Hc|apply Hnc; exact I].
  - destruct ids as [|i [|j ids]].
    + step. apply tuple_loop_blame. intros i [].
    + step. apply tuple_loop_blame. intros j [<-|[]]. split; [apply Hm; left; reflexivity|].
      destruct (compact_at (checker_of P)) as [z|]; [|exact I]. destruct Hc as (ti & inner & H2 & H3 & H4 & H5). exists ti, inner. repeat split; auto.
      intros H. destruct (Hsh (H5 H)) as [[k Hk]|Hk]; [destruct (Hper k Hk)|]. rewrite Hdef in Hk. exact Hk.
    + eapply still_bind; [apply (reject_blame _ id); [exact Hc|apply Hnc; exact I]|]. intros u Hno; cbv beta in Hno.
      step. apply tuple_loop_blame. intros z Hz. split; [apply Hm, Hz|]. cbn [forget_hint compact_at]. rewrite Hno. exact I.
  - step. eapply prim_blame; eauto.
  - eapply still_bind; [apply (reject_blame _ id); [exact Hc|apply Hnc; exact I]|]. intros u Hno; cbv beta in Hno.
    apply still_bind with (Q := fun c => compact_at c = Some id).
    { intros Hp e. pose proof (check_id_acc (with_compact_at (checker_of P) id) inner) as H. destruct (check_id _ inner) as [c2|x].
      - unfold lift_p, map_err, lift, ret. split; [reflexivity|exact H].
      - subst x. apply Hm. left. reflexivity. }
    intros c Hci. apply Hd. split; [apply Hm; left; reflexivity|]. split; [exact I|]. cbn [checker_of given]. rewrite Hci. exists t, inner. auto.
  - eapply still_bind; [apply (reject_blame _ id); [exact Hc|apply Hnc; exact I]|]. intros u Hu; clear u Hu. step. eapply bit_sequence_blame; eauto.
Qed.

Lemma found_shift t o k n : found types t o k n -> n = 0%nat \/ (n = 1%nat /\ o <> None).
Proof. intros H. destruct H; auto; right; split; auto; congruence. Qed.

Lemma checked_blame t id P p : need id -> lookup types id = Some t -> cinv (compact_at (checker_of P)) id ->
  blame any p (do k <- checked_from_type b r t; decode_checked b r d k t id P).
Proof.
  intros Hn Ht Hc Hp e. unfold bind. destruct (checked_exact types data t p e) as (k & n & Hf & ->).
  assert (Hle : (p + n <= L)%nat).
  { destruct (found_shift _ _ _ _ Hf) as [-> | [-> Ho] ]; [lia|]. apply nth_error_Some in Ho. lia. }
  assert (HD : forall q, blame any q (decode_checked b r d k t id P)).
  { intros q. destruct Hf as [Hk|k Hk|Hk|Hk|k Hk|vs i v f k Hk Htd Ho Hv Hvf Hsg|Hk Hno|it vs i v f inner items Hk Htd Ho Hv Hvf Hin Hki Hit|it Hk Hno]; cbn [decode_checked].
    - apply plain_blame; auto. unfold def_of. rewrite Hk. reflexivity.
    - step. eapply fixed_blame; eauto; [|eapply not_compactable_special; eauto; rewrite Hk; exact I].
      intros s. eapply Asks_size; [|reflexivity]. unfold fixed_size. rewrite Hk. reflexivity.
    - eapply still_bind; [apply (reject_blame _ id); [exact Hc|eapply not_compactable_special; eauto; rewrite Hk; exact I]|]. intros u Hu; clear u Hu. step.
      unfold special_case_h256. step. apply (cut_blame id t); auto; [|discriminate]. intros s. apply (Asks_size _ _ _ _ _ 32%nat); [|reflexivity].
      unfold fixed_size. rewrite Hk. reflexivity.
    - eapply still_bind; [apply (reject_blame _ id); [exact Hc|eapply not_compactable_special; eauto; rewrite Hk; exact I]|]. intros u Hu; clear u Hu. step.
      eapply era_blame; eauto.
    - step. eapply per_blame; eauto.
    - assert (Hdef : def_of t = Some (TVariant vs)) by (unfold def_of; rewrite Hk, Htd; reflexivity).
      step. eapply fixed_blame; eauto; [|eapply not_compactable; eauto; exact I].
      intros s. eapply Asks_signature; eauto. unfold by_index in Hv. apply find_some in Hv. apply Hv.
    - apply plain_blame; auto. unfold def_of. rewrite Hk. reflexivity.
    - assert (Hdef : def_of t = Some (TVariant vs)) by (unfold def_of; rewrite Hk, Htd; reflexivity).
      assert (Hdefi : def_of inner = Some (TVariant items)) by (unfold def_of; rewrite Hki, Hit; reflexivity).
      eapply still_bind; [apply (reject_blame _ id); [exact Hc|eapply not_compactable; eauto; exact I]|]. intros u Hu; clear u Hu. step.
      apply (variant_blame (f_ty f) inner); auto. apply (needs_in id t _ _ Hn Ht Hdef). cbn [mentions]. apply in_flat_map. exists v.
      unfold by_index in Hv. apply find_some in Hv. split; [apply Hv|]. rewrite Hvf. left. reflexivity.
    - apply plain_blame; auto. unfold def_of. rewrite Hk. reflexivity. }
  specialize (HD (p + n)%nat Hle e). destruct (decode_checked b r d k t id P (p + n)%nat e) as [[[x|x| |] q] e1]; try exact I.
  - split; [lia|exact I].
  - apply (acc_le _ _ _ HD). lia.
Qed.

Lemma body_blame i P p : fine i P -> blame any p (decode_body b r d i P).
Proof.
  intros (Hn & Hi & Hc). unfold decode_body.
  apply still_bind with (Q := fun x => lookup types (snd x) = Some (fst x) /\ snd x = given i).
  - destruct i as [t id|id]; cbn [given] in *.
    + intros Hp e. unfold ret. auto.
    + intros Hp e. pose proof (resolve_blame id p Hn Hp e) as H. unfold bind. destruct (map_err PRegistry (resolve_ty r id) p e) as [[[t|x| |] q] e1]; try exact I; [|exact H].
      destruct H as [-> H]. unfold ret. auto.
  - intros [t id] [Ht Hid]. cbn [fst snd] in *. subst id. apply checked_blame; [exact Hn|exact Ht|]. unfold add_info. destruct (info_is_empty (info_from_ty t)); exact Hc.
Qed.
End Step.

Lemma decode_blame fuel : forall i P p, fine i P -> blame any p (decode b r fuel i P).
Proof.
  induction fuel as [|fuel IH]; intros i P p Hf; cbn [decode]; [intros Hp e; exact I|]. apply body_blame; [exact IH|exact Hf].
Qed.
End Blame.

Theorem decode_accuses types data id pos x q : is_bytes data -> (pos <= List.length data)%nat ->
  decode_at types data id pos = (Err x, q) -> accuses types data id pos x.
Proof.
  intros Hb Hp H.
  assert (Hf : fine types id (Symbol id) propagated_new).
  { split; [apply Needed_itself|]. split; exact I. }
  pose proof (decode_blame types data Hb id (E := unit) (decode_fuel (@slice_buffer unit data) (@portable unit types)) (Symbol id) propagated_new pos Hf Hp tt) as Ha.
  pose proof H as H0. unfold decode_at, decode_as_type_at_position, decode_with_type in H.
  match type of H with context [decode ?a ?b ?c ?d ?e pos tt] => destruct (decode a b c d e pos tt) as [[o q1] e1] end. injection H as -> ->.
  destruct x as [y|y|at_p|from|at_p name|at_p]; try exact Ha. destruct y as [|y]; [exact Ha|]. destruct y; try exact Ha.
  apply Accuses_cycle; [exact Ha|]. exact (c10_cyclic_is_true _ _ _ _ _ _ H0).
Qed.

Theorem decode_all_accuses types data id x : is_bytes data -> decode_all types data id = Err x ->
  accuses types data id 0 x \/
  exists y from, decode_at types data id 0 = (Ok y, from) /\ (from < List.length data)%nat /\ x = SomeDataNotUsedBlob from.
Proof.
  intros Hb H. unfold decode_all, decode_all_as_type in H. destruct (decode_all_body _ _ id 0 tt) as [[o q] e] eqn:Hd. cbn [fst] in H. subst o.
  unfold decode_all_body, bind, set_pos, get_pos, ret, fail in Hd.
  pose proof (c05_position_bounds unit (slice_buffer data) (portable types) (proj1 (slices_are_good unit data)) (portable_is_good unit types) id 0 tt) as Hpos.
  pose proof (fun x q => decode_accuses types data id 0 x q Hb ltac:(lia)) as Ha. unfold decode_at in *.
  destruct (decode_as_type_at_position (slice_buffer data) (portable types) id 0 tt) as [[o1 q1] e1] eqn:Hd1.
  destruct o1 as [y|y| |]; try discriminate.
  - right. exists y, q1. split; [reflexivity|]. change (total_len (slice_buffer data)) with (List.length data) in Hd.
    destruct (Nat.eqb_spec q1 (List.length data)) as [He|He]; [discriminate|]. injection Hd as <- <- <-. split; [|reflexivity].
    specialize (Hpos _ _ _ eq_refl ltac:(lia)). cbn [total_len slice_buffer] in Hpos. lia.
  - left. injection Hd as <- <- <-. exact (Ha _ _ eq_refl).
Qed.

Theorem registry_innocent types data id pos x q : is_bytes data -> (pos <= List.length data)%nat ->
  (forall i, needed types id i -> exists t, lookup types i = Some t /\
     ~ clos_trans N (contains types) i i /\
     (forall inner, def_of t = Some (TCompact inner) -> compactable types inner) /\
     (forall store order, def_of t = Some (TBitSequence store order) -> bit_store types store <> None /\ bit_order_of types order <> None)) ->
  decode_at types data id pos = (Err x, q) ->
  match x with
  | UnexpectedEnumVariant _ | TypeFailure _ _ | NoCompact _ | PBuffer (DataTooShort _ _) => True
  | _ => False
  end.
Proof.
  intros Hb Hp Hg H. pose proof (decode_accuses _ _ _ _ _ _ Hb Hp H) as Ha.
  destruct Ha as [i t vs at_p bb Hn Hl|i t at_p name Hn Hl|i t w at_p Hn Hl|i t at_p n Hn Hl|i Hn Hl|i Hn Hc|i t inner Hn Hl Hd Hc|i t store order Hn Hl Hd _ Ho|i t store order Hn Hl Hd _ Ho]; try exact I;
  destruct (Hg i Hn) as (t2 & H1 & H2 & H3 & H4).
  - congruence.
  - contradiction.
  - assert (t2 = t) by congruence. subst t2. exact (Hc (H3 _ Hd)).
  - assert (t2 = t) by congruence. subst t2. exact (proj2 (H4 _ _ Hd) Ho).
  - assert (t2 = t) by congruence. subst t2. exact (proj1 (H4 _ _ Hd) Ho).
Qed.
