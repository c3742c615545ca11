(** The decoder on types without members, against the specification. *)
From Coq Require Import Lia ZifyBool ZifyNat ZifyN.
From Verif Require Import Base Compact Types Indicators Decode Spec ProofBase ProofCompact
  ProofUtf8 ProofLeaf ProofRead ProofTables ProofPeel ProofSpec.
Local Open Scope list_scope.

Lemma def_of_cases t d : def_of t = Some d -> d = t_def t /\
  (classify t = SpPlain \/ classify t = SpMultiSig \/ exists it, classify t = SpItem it).
Proof.
  unfold def_of. destruct (classify t) eqn:Hc; try discriminate;
    intros H; injection H as <-; split; eauto.
Qed.

Lemma guard_ok b l bs : guard b l = Some bs <-> b = true /\ bs = l.
Proof.
  unfold guard. destruct b; split; [intros H; injection H as <-; auto|intros (_ & ->); auto|
    discriminate|intros (H & _); discriminate].
Qed.

Section Rel.
Variable types : list ty.
Context {E : Type}.
Variable data : bytes.
Hypothesis Hbytes : is_bytes data.
Local Notation enc := (enc types).
Local Notation view := (view types).
Local Notation nocyc := (nocyc types).
Local Notation lookup := (lookup types).
Local Notation buf := (@slice_buffer E data).
Local Notation reg := (@portable E types).

(** There is a value of type [id] with encoding at [pos] up to [q], parsed form [d] and
    type information [l]. *)
Definition rel (c : checker) (id : N) (pos : nat) (d : pdata) (l : list info) (q : nat) : Prop :=
  exists v bs, enc (is_some (compact_at c)) id v = Some bs /\
    view false (c_hint c) id v = Some (d, l) /\ nocyc (cycle_check c) id v = true /\
    has data pos bs /\ q = (pos + List.length bs)%nat.

Lemma view_info h id t v d l : lookup id = Some t -> view false h id v = Some (d, l) ->
  (forall inner, def_of t <> Some (TCompact inner)) -> l = own_info t.
Proof.
  intros Hl Hv Hc. revert Hv. destruct v; cbn [Spec.view]; rewrite Hl;
  repeat match goal with
  | |- context [match ?x with _ => _ end] => destruct x eqn:?; try discriminate
  end; try (intros H; injection H as <- <-; reflexivity).
  exfalso. eapply Hc; eauto.
Qed.

Lemma get_compact_has w p (e : E) n q e' :
  get_compact w buf p e = (Ok n, q, e') <->
  e' = e /\ fits w n = true /\ q = (p + List.length (compact_enc n))%nat /\ has data p (compact_enc n).
Proof.
  rewrite get_compact_ok by exact Hbytes. unfold has. split.
  - tauto.
  - intros (-> & Hf & -> & Hh). repeat split; auto.
    destruct (has_len data p (compact_enc n) Hh) as [H|H]; [|lia].
    exfalso. eapply compact_enc_nonempty, H.
Qed.

Definition prim_enc (x : prim) (cpt : bool) (v : value) (bs : bytes) : Prop :=
  match x with
  | PrBool => exists b, v = VBool b /\ cpt = false /\ bs = [if b then 1%N else 0%N]
  | PrChar => exists n, v = VNum n /\ cpt = false /\ scalar n = true /\ bs = le_bytes 4 n
  | PrStr => exists l, v = VStr l /\ cpt = false /\ forallb scalar l = true /\
      fits U32 (N.of_nat (List.length (utf8s l))) = true /\
      bs = compact_enc (N.of_nat (List.length (utf8s l))) ++ utf8s l
  | PrU w => exists n, v = VNum n /\ fits w n = true /\
      bs = (if cpt then compact_enc n else le_bytes (usize w) n)
  | PrU256 => exists n, v = VNum n /\ cpt = false /\ (n <? 2 ^ 256)%N = true /\ bs = le_bytes 32 n
  | PrI w => exists z, v = VInt z /\ cpt = false /\ int_range (usize w) z = true /\ bs = int_bytes (usize w) z
  | PrI256 => exists z, v = VInt z /\ cpt = false /\ int_range 32 z = true /\ bs = int_bytes 32 z
  end.

Lemma enc_prim cpt id t x v bs : lookup id = Some t -> def_of t = Some (TPrimitive x) ->
  enc cpt id v = Some bs <-> prim_enc x cpt v bs.
Proof.
  intros Hl Hd. destruct (def_of_cases _ _ Hd) as [_ Hc].
  assert (HV : forall n, enc cpt id (VNum n) = match x with
     | PrU w => guard (fits w n) (if cpt then compact_enc n else le_bytes (usize w) n)
     | PrU256 => guard (negb cpt && (n <? 2 ^ 256)%N) (le_bytes 32 n)
     | PrChar => guard (negb cpt && scalar n) (le_bytes 4 n)
     | _ => None end).
  { intros n. cbn [Spec.enc]. rewrite Hl, Hd. destruct Hc as [-> | [-> | (it & ->)]]; destruct x; reflexivity. }
  assert (HI : forall z, enc cpt id (VInt z) = match x with
     | PrI w => guard (negb cpt && int_range (usize w) z) (int_bytes (usize w) z)
     | PrI256 => guard (negb cpt && int_range 32 z) (int_bytes 32 z)
     | _ => None end).
  { intros n. cbn [Spec.enc]. rewrite Hl, Hd. unfold int_range. destruct x; try reflexivity;
    rewrite andb_assoc; reflexivity. }
  split.
  - intros H. destruct v;
      try (exfalso; cbn [Spec.enc] in H; rewrite Hl, ?Hd in H;
           destruct Hc as [Hc | [Hc | (it & Hc)]]; rewrite ?Hc in H; discriminate).
    + rewrite HV in H. destruct x; try discriminate; apply guard_ok in H; destruct H as [H ->]; cbn [prim_enc];
        destruct cpt; try discriminate; eauto 10.
    + rewrite HI in H. destruct x; try discriminate; apply guard_ok in H; destruct H as [H ->]; cbn [prim_enc];
        destruct cpt; try discriminate; eauto 10.
    + cbn [Spec.enc] in H. rewrite Hl, Hd in H. destruct x; try discriminate.
      apply guard_ok in H. destruct H as [H ->]. destruct cpt; [discriminate|]. cbn [prim_enc]. eauto.
    + cbn [Spec.enc] in H. rewrite Hl, Hd in H. destruct x; try discriminate.
      apply guard_ok in H. destruct H as [H ->]. destruct cpt; [discriminate|].
      cbn [negb andb] in H. apply andb_true_iff in H. cbn [prim_enc]. destruct H. eauto 10.
  - destruct x; cbn [prim_enc].
    + intros (b & -> & -> & ->). cbn [Spec.enc]. rewrite Hl, Hd. reflexivity.
    + intros (n & -> & -> & Hs & ->). rewrite HV. apply guard_ok. rewrite Hs. auto.
    + intros (l & -> & -> & Hs & Hf & ->). cbn [Spec.enc]. rewrite Hl, Hd. apply guard_ok.
      rewrite Hs, Hf. auto.
    + intros (n & -> & Hs & ->). rewrite HV. apply guard_ok. rewrite Hs. auto.
    + intros (n & -> & -> & Hs & ->). rewrite HV. apply guard_ok. rewrite Hs. auto.
    + intros (n & -> & -> & Hs & ->). rewrite HI. apply guard_ok. rewrite Hs. auto.
    + intros (n & -> & -> & Hs & ->). rewrite HI. apply guard_ok. rewrite Hs. auto.
Qed.

Definition prim_view (x : prim) (h : hint) (v : value) : option pdata :=
  match x, v with
  | PrBool, VBool b => Some (DBool b)
  | PrChar, VNum n => Some (DChar n)
  | PrStr, VStr l => Some (DText (utf8s l) (str_label h))
  | PrU w, VNum n => Some (DUInt w n (uint_labels h))
  | PrU256, VNum n => Some (DU256 n)
  | PrI w, VInt z => Some (DInt w z)
  | PrI256, VInt z => Some (DI256 z)
  | _, _ => None
  end.

Lemma view_prim cpt elem h id t x v bs : lookup id = Some t -> def_of t = Some (TPrimitive x) ->
  prim_enc x cpt v bs ->
  view elem h id v = option_map (fun d => (d, own_info t)) (prim_view x h v).
Proof.
  intros Hl Hd. destruct (def_of_cases _ _ Hd) as [_ Hc].
  destruct x; cbn [prim_enc].
  - intros (b & -> & _). cbn [Spec.view]. rewrite Hl. reflexivity.
  - intros (n & -> & _). cbn [Spec.view]. rewrite Hl, Hd.
    destruct Hc as [-> | [-> | (it & ->)]]; reflexivity.
  - intros (l & -> & _). cbn [Spec.view]. rewrite Hl. reflexivity.
  - intros (n & -> & _). cbn [Spec.view]. rewrite Hl, Hd.
    destruct Hc as [-> | [-> | (it & ->)]]; reflexivity.
  - intros (n & -> & _). cbn [Spec.view]. rewrite Hl, Hd.
    destruct Hc as [-> | [-> | (it & ->)]]; reflexivity.
  - intros (n & -> & _). cbn [Spec.view]. rewrite Hl, Hd. reflexivity.
  - intros (n & -> & _). cbn [Spec.view]. rewrite Hl, Hd. reflexivity.
Qed.

Lemma nocyc_prim cyc cpt id t x v bs : lookup id = Some t -> prim_enc x cpt v bs -> nocyc cyc id v = true.
Proof.
  intros Hl. destruct x; cbn [prim_enc]; intros (n & -> & _); cbn [ProofPeel.nocyc]; rewrite Hl; reflexivity.
Qed.

Lemma prim_rel c id t x pos d l q : lookup id = Some t -> def_of t = Some (TPrimitive x) ->
  rel c id pos d l q <->
  l = own_info t /\ exists v bs, prim_enc x (is_some (compact_at c)) v bs /\
    prim_view x (c_hint c) v = Some d /\ has data pos bs /\ q = (pos + List.length bs)%nat.
Proof.
  intros Hl Hd. split.
  - intros (v & bs & He & Hv & Hn & Hh & ->). rewrite (enc_prim _ _ _ _ _ _ Hl Hd) in He.
    rewrite (view_prim _ _ _ _ _ _ _ _ Hl Hd He) in Hv.
    destruct (prim_view x (c_hint c) v) as [d1|] eqn:Hp; [|discriminate].
    injection Hv as <- <-. split; auto. exists v, bs. auto.
  - intros (-> & v & bs & He & Hv & Hh & ->). exists v, bs.
    rewrite (enc_prim _ _ _ _ _ _ Hl Hd), (view_prim _ _ _ _ _ _ _ _ Hl Hd He), Hv,
      (nocyc_prim _ _ _ _ _ _ _ Hl He). auto.
Qed.

Lemma block_compact_ok {A} c (m : M E parser_err A) p e a q e' :
  block_compact c m p e = (Ok a, q, e') <-> compact_at c = None /\ m p e = (Ok a, q, e').
Proof.
  unfold block_compact. destruct (compact_at c); split; auto; try discriminate; intros [H ?]; [discriminate|auto].
Qed.

Lemma is_some_false {A} (o : option A) : is_some o = false <-> o = None.
Proof. destruct o; cbn; split; congruence. Qed.

Lemma bind_ret_ok {A B} (m : M E parser_err A) (f : A -> B) p e b q e' :
  bind m (fun x => ret (f x)) p e = (Ok b, q, e') <-> exists a, b = f a /\ m p e = (Ok a, q, e').
Proof.
  rewrite bind_ok_iff. split.
  - intros (a & p1 & e1 & H & H1). apply ret_ok in H1. destruct H1 as (-> & -> & ->). eauto.
  - intros (a & -> & H). exists a, q, e'. split; auto.
Qed.

Lemma decode_primitive_ok x c pos (e : E) d q e' :
  decode_primitive buf x c pos e = (Ok d, q, e') <->
  e' = e /\ exists v bs, prim_enc x (is_some (compact_at c)) v bs /\
    prim_view x (c_hint c) v = Some d /\ has data pos bs /\ q = (pos + List.length bs)%nat.
Proof.
  destruct x; cbn [decode_primitive prim_enc].
  - rewrite block_compact_ok, bind_ret_ok; setoid_rewrite is_some_false. split.
    + intros (Hc & a & -> & H). apply cut_bool_ok in H; auto. destruct H as (-> & -> & H).
      split; auto. exists (VBool a). eexists. split; [eexists; repeat split; auto|]. cbn [prim_view List.length]. auto.
    + intros (-> & v & bs & (b & -> & Hc & ->) & Hv & Hh & ->). cbn [prim_view] in Hv. injection Hv as <-.
      split; auto. exists b. split; auto. apply cut_bool_ok; auto.
  - rewrite block_compact_ok, bind_ret_ok; setoid_rewrite is_some_false. split.
    + intros (Hc & a & -> & H). apply cut_char_ok in H; auto. destruct H as (-> & -> & H & Hs).
      split; auto. exists (VNum a). eexists. split; [eexists; repeat split; auto|]. rewrite le_bytes_length. cbn [prim_view]. auto.
    + intros (-> & v & bs & (b & -> & Hc & Hs & ->) & Hv & Hh & ->). cbn [prim_view] in Hv. injection Hv as <-.
      split; auto. exists b. split; auto. apply cut_char_ok; auto; rewrite le_bytes_length; auto.
  - rewrite bind_ok_iff; setoid_rewrite is_some_false. split.
    + intros (u & p1 & e1 & H & H1). apply reject_compact_m_ok in H. destruct H as (Hc & -> & ->).
      apply decode_str_ok in H1; auto. destruct H1 as (cs & Hs & -> & -> & Hf & Hh & ->).
      split; auto. exists (VStr cs). eexists. split; [eexists; repeat split; auto|]. cbn [prim_view].
      rewrite ?hint_str_spec. auto.
    + intros (-> & v & bs & (b & -> & Hc & Hs & Hf & ->) & Hv & Hh & ->). cbn [prim_view] in Hv. injection Hv as <-.
      exists tt, pos, e. split; [apply reject_compact_m_ok; auto|].
      apply decode_str_ok; auto. exists b. rewrite ?hint_str_spec. auto 10.
  - unfold parse_uint. rewrite bind_ret_ok. split.
    + intros (a & -> & H). destruct (compact_at c) as [i|]; cbn [is_some].
      * apply get_compact_has in H. destruct H as (-> & Hf & -> & Hh). split; auto.
        exists (VNum a). eexists. split; [eexists; repeat split; auto|]. cbn [prim_view]. rewrite ?hint_uint_spec. auto.
      * apply cut_uint_ok in H; auto. destruct H as (-> & -> & Hh & Hf). split; auto.
        exists (VNum a). eexists. split; [eexists; repeat split; auto|]. cbn [prim_view]. rewrite ?hint_uint_spec, le_bytes_length. auto.
    + intros (-> & v & bs & (b & -> & Hf & ->) & Hv & Hh & ->). cbn [prim_view] in Hv. injection Hv as <-.
      exists b. rewrite ?hint_uint_spec. split; auto.
      destruct (compact_at c) as [i|]; cbn [is_some] in *.
      * apply get_compact_has. auto.
      * apply cut_uint_ok; auto; rewrite le_bytes_length; auto.
  - rewrite block_compact_ok, bind_ret_ok; setoid_rewrite is_some_false. split.
    + intros (Hc & a & -> & H). apply cut_u256_ok in H; auto. destruct H as (-> & -> & H & Hs).
      split; auto. exists (VNum a). eexists. split; [eexists; repeat split; auto|]. rewrite le_bytes_length. cbn [prim_view]. auto.
    + intros (-> & v & bs & (b & -> & Hc & Hs & ->) & Hv & Hh & ->). cbn [prim_view] in Hv. injection Hv as <-.
      split; auto. exists b. split; auto. apply cut_u256_ok; auto; rewrite le_bytes_length; auto.
  - rewrite block_compact_ok, bind_ret_ok; setoid_rewrite is_some_false. split.
    + intros (Hc & a & -> & H). apply cut_int_ok in H; auto. destruct H as (-> & -> & H & Hs).
      split; auto. exists (VInt a). eexists. split; [eexists; repeat split; auto|]. rewrite int_bytes_length. cbn [prim_view]. auto.
    + intros (-> & v & bs & (b & -> & Hc & Hs & ->) & Hv & Hh & ->). cbn [prim_view] in Hv. injection Hv as <-.
      split; auto. exists b. split; auto. apply cut_int_ok; auto; rewrite int_bytes_length; auto.
  - rewrite block_compact_ok, bind_ret_ok; setoid_rewrite is_some_false. split.
    + intros (Hc & a & -> & H). apply cut_i256_ok in H; auto. destruct H as (-> & -> & H & Hs).
      split; auto. exists (VInt a). eexists. split; [eexists; repeat split; auto|]. rewrite int_bytes_length. cbn [prim_view]. auto.
    + intros (-> & v & bs & (b & -> & Hc & Hs & ->) & Hv & Hh & ->). cbn [prim_view] in Hv. injection Hv as <-.
      split; auto. exists b. split; auto. apply cut_i256_ok; auto; rewrite int_bytes_length; auto.
Qed.

Lemma decode_primitive_rel c id t x pos (e : E) d q e' :
  lookup id = Some t -> def_of t = Some (TPrimitive x) ->
  decode_primitive buf x c pos e = (Ok d, q, e') <-> e' = e /\ rel c id pos d (own_info t) q.
Proof.
  intros Hl Hd. rewrite decode_primitive_ok, (prim_rel _ _ _ _ _ _ _ _ Hl Hd). tauto.
Qed.

(** *** Bit sequences *)

Lemma find_bit_order_ok order id p (e : E) o q e' :
  find_bit_order_ty reg order id p e = (Ok o, q, e') <->
  q = p /\ e' = e /\ bit_order_of types order = Some o.
Proof.
  unfold find_bit_order_ty, bind, bit_order_of.
  pose proof (resolve_total types order p e) as Hr.
  destruct (Types.lookup types order) as [[path pr df dc]|] eqn:Hl; rewrite Hr.
  - cbn [t_def t_path].
    destruct df; try (split; [discriminate|intros (_ & _ & H); discriminate]).
    destruct (path_cases path) as [-> | (ns & a & ->)].
    + cbn. split; [discriminate|intros (_ & _ & H); discriminate].
    + rewrite path_ident_snoc, last_last.
      destruct (String.eqb a "Lsb0"); [|destruct (String.eqb a "Msb0")];
        (split; [try discriminate; intros H; inversion H; auto|intros (-> & -> & H); inversion H; auto]).
  - split; [discriminate|intros (_ & _ & H); discriminate].
Qed.

Lemma into_bitvec_decode_ok w p (e : E) l q e' :
  into_bitvec_decode buf (N.of_nat (usize w)) p e = (Ok l, q, e') <->
  exists n, fits U32 n = true /\ e' = e /\ q = (p + List.length l)%nat /\ has data p l /\
    exists rest, l = compact_enc n ++ rest /\
      List.length rest = (N.to_nat (store_len w n) * usize w)%nat.
Proof.
  unfold into_bitvec_decode, bitvec_positions. split.
  - intros H. inv_bind H. apply get_pos_ok in H0. destruct H0 as (-> & -> & ->).
    inv_bind H. inv_bind H0. destruct a0 as [n st].
    apply find_compact_ok in H1; auto. destruct H1 as (-> & -> & Hf & -> & Hle & Hs).
    apply ret_ok in H0. destruct H0 as (-> & -> & ->).
    inv_bind H. apply read_slice_ok in H0. destruct H0 as (-> & -> & Hle2 & ->).
    inv_bind H. apply set_pos_ok in H0. destruct H0 as (_ & -> & ->).
    apply ret_ok in H. destruct H as (-> & -> & ->).
    rewrite bitvec_elements_store in *.
    set (sz := (store_len w n * N.of_nat (usize w))%N) in *.
    assert (Hsz : N.to_nat sz = (N.to_nat (store_len w n) * usize w)%nat) by (unfold sz; lia).
    clearbody sz.
    set (cl := List.length (compact_enc n)) in *.
    assert (Hm : N.to_nat (N.of_nat (p + cl - p) + sz) = (cl + N.to_nat sz)%nat) by lia.
    exists n. split; auto. split; auto.
    rewrite Hm. rewrite slice_length by lia.
    split; auto. split; [apply has_slice; lia|].
    rewrite slice_app. exists (slice data (p + cl) (N.to_nat sz)). split.
    + rewrite Hs. reflexivity.
    + rewrite slice_length by lia. exact Hsz.
  - intros (n & Hf & -> & -> & Hh & rest & -> & Hr).
    set (cl := List.length (compact_enc n)) in *.
    assert (Hne : (p + List.length (compact_enc n ++ rest) <= List.length data)%nat).
    { destruct (has_len _ _ _ Hh) as [Hx|Hx]; auto.
      apply app_eq_nil in Hx. destruct Hx as [Hx _]. exfalso. eapply compact_enc_nonempty, Hx. }
    rewrite app_length in Hne. fold cl in Hne.
    unfold bind at 1. cbn [get_pos].
    assert (Hfind : find_compact U32 buf p p e = (Ok (n, (p + cl)%nat), p, e)).
    { apply find_compact_ok; auto. apply has_app in Hh. destruct Hh as [Hh _].
      repeat split; auto. lia. }
    rewrite bind_ok_step with (a := ((p + cl)%nat, n,
       (N.of_nat (p + cl - p) + bitvec_elements (N.of_nat (usize w)) n * N.of_nat (usize w))%N))
       (p1 := p) (e1 := e) by (rewrite (bind_ok_step _ _ _ _ _ _ _ Hfind); reflexivity).
    cbv beta iota. rewrite bitvec_elements_store.
    assert (Hm : N.to_nat (N.of_nat (p + cl - p) + store_len w n * N.of_nat (usize w)) =
                 (cl + List.length rest)%nat) by lia.
    rewrite (bind_ok_step _ _ _ _ (compact_enc n ++ rest) p e).
    + unfold bind, set_pos, ret. rewrite app_length. fold cl. rewrite Hm. reflexivity.
    + apply read_slice_ok. rewrite Hm. repeat split; auto.
      * lia.
      * unfold has in Hh. rewrite app_length in Hh. auto.
Qed.

Lemma decode_bit_sequence_ok store order id p (e : E) d q e' :
  decode_bit_sequence buf reg store order id p e = (Ok d, q, e') <->
  e' = e /\ exists o w n elems, bit_order_of types order = Some o /\ bit_store types store = Some w /\
    (n <= max_bits)%N /\ forallb (fits w) elems = true /\
    N.of_nat (List.length elems) = store_len w n /\
    d = DBitVec w o (the_bits w o n elems) /\
    has data p (compact_enc n ++ flat_map (le_bytes (usize w)) elems) /\
    q = (p + List.length (compact_enc n ++ flat_map (le_bytes (usize w)) elems))%nat.
Proof.
  unfold decode_bit_sequence. split.
  - intros H. inv_bind H. apply get_pos_ok in H0. destruct H0 as (-> & -> & ->).
    inv_bind H. apply map_err_ok in H0. apply find_bit_order_ok in H0. destruct H0 as (-> & -> & Ho).
    inv_bind H. apply resolve_portable_ok in H0. destruct H0 as (Hl & -> & ->).
    assert (Hw : exists w, bit_store types store = Some w /\ t_def a0 = TPrimitive (PrU w) /\
       (do l <- into_bitvec_decode buf (N.of_nat (usize w));
        match bitvec_decode_all w a l with
        | Some bits => ret (DBitVec w a bits)
        | None => fail (TypeFailure p (bitvec_name w a))
        end) p e = (Ok d, q, e')).
    { unfold bit_store. rewrite Hl. destruct a0 as [pa pr df dc]. cbn [t_def] in *.
      destruct df as [| | | | |[| | |w| | |]| |]; try discriminate.
      destruct w; try discriminate; eexists; (split; [reflexivity|]); auto. }
    destruct Hw as (w & Hw & _ & Hd). inv_bind Hd.
    destruct (bitvec_decode_all w a a1) as [bits|] eqn:Hb; [|discriminate].
    apply ret_ok in Hd. destruct Hd as (-> & -> & ->).
    apply into_bitvec_decode_ok in H0. destruct H0 as (n & Hf & -> & -> & Hh & _).
    split; auto.
    apply bitvec_decode_all_inv in Hb; [|eapply has_is_bytes; eauto].
    destruct Hb as (n' & elems & Hn & Hel & Hlen & -> & ->).
    exists a, w, n', elems. repeat split; auto.
  - intros (-> & o & w & n & elems & Ho & Hw & Hn & Hel & Hlen & -> & Hh & ->).
    unfold bind at 1. cbn [get_pos].
    rewrite (bind_ok_step _ _ _ _ o p e)
      by (apply map_err_ok_iff, find_bit_order_ok; auto).
    unfold bit_store in Hw. destruct (Types.lookup types store) as [ts|] eqn:Hl; [|discriminate].
    rewrite (bind_ok_step _ _ _ _ ts p e) by (apply resolve_portable_ok; auto).
    destruct ts as [pa pr df dc]. cbn [t_def].
    destruct df as [| | | | |[| | |w0| | |]| |]; try discriminate.
    assert (w0 = w /\ w0 <> U128) as [-> Hnot] by (destruct w0; try discriminate; injection Hw as <-; split; congruence).
    assert (Hgoal : (do l <- into_bitvec_decode buf (N.of_nat (usize w));
        match bitvec_decode_all w o l with
        | Some bits => ret (DBitVec w o bits)
        | None => fail (TypeFailure p (bitvec_name w o))
        end) p e = (Ok (DBitVec w o (the_bits w o n elems)),
          (p + List.length (compact_enc n ++ flat_map (le_bytes (usize w)) elems))%nat, e)).
    { rewrite (bind_ok_step _ _ _ _ (compact_enc n ++ flat_map (le_bytes (usize w)) elems)
        (p + List.length (compact_enc n ++ flat_map (le_bytes (usize w)) elems))%nat e).
      - rewrite bitvec_decode_all_enc by auto. reflexivity.
      - apply into_bitvec_decode_ok. exists n. split; [apply max_bits_fits; auto|].
        split; auto. split; auto. split; auto.
        eexists. split; [reflexivity|]. rewrite flat_le_bytes_length. lia. }
    destruct w; try congruence; exact Hgoal.
Qed.

Lemma decode_bit_sequence_rel c id t store order pos (e : E) d q e' :
  lookup id = Some t -> def_of t = Some (TBitSequence store order) ->
  compact_at c = None ->
  decode_bit_sequence buf reg store order id pos e = (Ok d, q, e') <->
  e' = e /\ rel c id pos d (own_info t) q.
Proof.
  intros Hl Hd Hc. destruct (def_of_cases _ _ Hd) as [_ Hk]. rewrite decode_bit_sequence_ok.
  split; intros (-> & H); (split; [reflexivity|]).
  - destruct H as (o & w & n & elems & Ho & Hw & Hn & Hel & Hlen & -> & Hh & ->).
    exists (VBits n elems). eexists. rewrite Hc. cbn [is_some].
    split; [|split; [|split; [|split; [exact Hh|reflexivity]]]].
    + cbn [Spec.enc]. rewrite Hl, Hd, Ho, Hw. apply guard_ok. split; auto.
      rewrite Hel. fold (store_len w n). rewrite Hlen, N.eqb_refl. 
      apply N.leb_le in Hn. rewrite Hn. reflexivity.
    + cbn [Spec.view]. rewrite Hl, Hd, Ho, Hw. reflexivity.
    + cbn [ProofPeel.nocyc]. rewrite Hl. reflexivity.
  - destruct H as (v & bs & He & Hv & _ & Hh & ->). rewrite Hc in He. cbn [is_some] in He.
    destruct v; cbn [Spec.enc] in He; rewrite Hl, ?Hd in He;
      try (destruct Hk as [Hk | [Hk | (it & Hk)]]; rewrite ?Hk in He; discriminate).
    destruct (bit_order_of types order) as [o|] eqn:Ho; [|discriminate].
    destruct (bit_store types store) as [w|] eqn:Hw; [|discriminate].
    cbv zeta in He. apply guard_ok in He. destruct He as [He ->].
    cbn [Spec.view] in Hv. rewrite Hl, Hd, Ho, Hw in Hv. injection Hv as <-.
    fold (store_len w n) in He. cbn [negb andb] in He.
    apply andb_true_iff in He. destruct He as [He H2]. apply andb_true_iff in He. destruct He as [H0 H1].
    exists o, w, n, elems. repeat split; auto; [apply N.leb_le; auto|apply N.eqb_eq; auto].
Qed.

(** *** Special types *)

Lemma special_rel c id t pos d l q : lookup id = Some t ->
  match classify t with SpRaw _ | SpHash | SpEra | SpPer _ => True | _ => False end ->
  rel c id pos d l q <->
  l = own_info t /\
  match classify t with
  | SpRaw k => exists b, compact_at c = None /\ (is_bytesb b && Nat.eqb (List.length b) (raw_len k) = true)%bool /\
      d = DFixed k b /\ has data pos b /\ q = (pos + List.length b)%nat
  | SpHash => exists b, compact_at c = None /\ (is_bytesb b && Nat.eqb (List.length b) 32 = true)%bool /\
      d = DHash (hash_label (c_hint c)) b /\ has data pos b /\ q = (pos + List.length b)%nat
  | SpEra => exists v, compact_at c = None /\ era_valid v = true /\ d = DEra v /\
      has data pos (era_enc v) /\ q = (pos + List.length (era_enc v))%nat
  | SpPer k => exists n bs, d = DPer k (N.min n (whole k)) /\ has data pos bs /\
      q = (pos + List.length bs)%nat /\
      if compact_at c then fits (part_width k) n = true /\ bs = compact_enc n
      else (n <=? whole k)%N = true /\ bs = le_bytes (usize (part_width k)) n
  | _ => False
  end.
Proof.
  intros Hl Hs.
  assert (Hd : def_of t = None) by (unfold def_of; destruct (classify t); tauto).
  split.
  - intros (v & bs & He & Hv & _ & Hh & ->).
    split. { eapply view_info; eauto. rewrite Hd. discriminate. }
    destruct v; cbn [Spec.enc] in He; rewrite Hl, ?Hd in He; try discriminate.
    + cbn [Spec.view] in Hv. rewrite Hl, Hd in Hv.
      destruct (classify t); try discriminate. injection Hv as <- _. exists n, bs.
      destruct (compact_at c); cbn [is_some] in He; apply guard_ok in He; destruct He as [He ->]; auto.
    + cbn [Spec.view] in Hv. rewrite Hl in Hv.
      destruct (classify t); try discriminate; injection Hv as <- _;
      apply guard_ok in He; destruct He as [He ->]; destruct (compact_at c); try discriminate;
      exists l0; auto.
    + cbn [Spec.view] in Hv. rewrite Hl in Hv.
      destruct (classify t); try discriminate; injection Hv as <- _;
      apply guard_ok in He; destruct He as [He ->]; destruct (compact_at c); try discriminate.
      exists e. auto.
  - intros (-> & H). unfold rel. destruct (classify t) eqn:Hk; try contradiction.
    + destruct H as (b & Hc & Hb & -> & Hh & ->). exists (VRaw b), b.
      cbn [Spec.enc Spec.view ProofPeel.nocyc]. rewrite Hl, Hk, Hc. cbn [is_some negb].
      repeat split; auto. apply guard_ok. auto.
    + destruct H as (b & Hc & Hb & -> & Hh & ->). exists (VRaw b), b.
      cbn [Spec.enc Spec.view ProofPeel.nocyc]. rewrite Hl, Hk, Hc. cbn [is_some negb].
      repeat split; auto. apply guard_ok. auto.
    + destruct H as (b & Hc & Hb & -> & Hh & ->). exists (VEra b), (era_enc b).
      cbn [Spec.enc Spec.view ProofPeel.nocyc]. rewrite Hl, Hk, Hc. cbn [is_some negb].
      repeat split; auto. apply guard_ok. auto.
    + destruct H as (n & bs & -> & Hh & -> & H). exists (VNum n), bs.
      cbn [Spec.enc Spec.view ProofPeel.nocyc]. rewrite Hl, Hk.
      repeat split; auto. destruct (compact_at c); destruct H as [H ->]; cbn [is_some]; apply guard_ok; auto.
Qed.

Lemma parse_fixed_ok k c p (e : E) d q e' :
  parse_fixed buf k c p e = (Ok d, q, e') <->
  e' = e /\ compact_at c = None /\ exists b, d = DFixed k b /\ q = (p + List.length b)%nat /\ has data p b /\
  (is_bytesb b && Nat.eqb (List.length b) (raw_len k))%bool = true.
Proof.
  unfold parse_fixed. rewrite block_compact_ok, bind_ret_ok. split.
  - intros (Hc & b & -> & H). apply cut_fixed_ok in H; auto. destruct H as (-> & -> & Hh & Hb).
    repeat split; auto. exists b. auto.
  - intros (-> & Hc & b & -> & -> & Hh & Hb). split; auto. exists b. split; auto. apply cut_fixed_ok; auto.
Qed.

Lemma parse_per_ok k c p (e : E) d q e' :
  parse_per buf k c p e = (Ok d, q, e') <->
  e' = e /\ exists n bs, d = DPer k (N.min n (whole k)) /\ has data p bs /\ q = (p + List.length bs)%nat /\
      if compact_at c then fits (part_width k) n = true /\ bs = compact_enc n
      else (n <=? whole k)%N = true /\ bs = le_bytes (usize (part_width k)) n.
Proof.
  unfold parse_per. rewrite bind_ret_ok. split.
  - intros (a & -> & H). destruct (compact_at c) as [ci|].
    + apply bind_ret_ok in H. destruct H as (n & -> & H). rewrite per_width_part in H.
      apply get_compact_has in H. destruct H as (-> & Hf & -> & Hh). split; auto.
      exists n, (compact_enc n). rewrite per_max_whole. auto.
    + apply cut_per_ok in H; auto. destruct H as (-> & -> & Hh & Hn). split; auto.
      exists a, (le_bytes (usize (part_width k)) a). rewrite le_bytes_length.
      apply N.leb_le in Hn as Hn1. rewrite N.min_l by exact Hn1. auto.
  - intros (-> & n & bs & -> & Hh & -> & H). exists (N.min n (whole k)). split; auto.
    destruct (compact_at c); destruct H as [H ->].
    + apply bind_ret_ok. exists n. rewrite ?per_max_whole, ?per_width_part. split; auto.
      apply get_compact_has. auto.
    + apply cut_per_ok; auto. apply N.leb_le in H as Hn1. rewrite N.min_l by exact Hn1.
      rewrite le_bytes_length. auto.
Qed.

Lemma special_case_h256_ok s p (e : E) d q e' :
  special_case_h256 buf s p e = (Ok d, q, e') <->
  e' = e /\ exists b, d = DHash s b /\ q = (p + List.length b)%nat /\ has data p b /\
  (is_bytesb b && Nat.eqb (List.length b) 32)%bool = true.
Proof.
  unfold special_case_h256. rewrite bind_ret_ok. split.
  - intros (b & -> & H). apply cut_raw_ok in H; [|auto|reflexivity].
    destruct H as (-> & -> & Hh & Hb). split; auto. exists b. auto.
  - intros (-> & b & -> & -> & Hh & Hb). exists b. split; auto. apply cut_raw_ok; [auto|reflexivity|auto].
Qed.

End Rel.
