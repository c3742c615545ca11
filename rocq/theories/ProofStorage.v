(** Storage entries: proofs (C27-C29). *)
From Coq Require Import Lia ZifyBool ZifyNat ZifyN.
From Verif Require Import Base Compact Types Indicators Decode Sign Storage Spec SpecWf SpecStorage ProofBase ProofLeaf ProofSpec
  SpecSource ProofSafe ProofSafe2 ProofCor ProofSign ProofSign2 Api ApiSign ApiStorage.
Local Open Scope list_scope.

Section Proof.
Variables blake2_128 twox_64 : bytes -> bytes.
Variable types : list ty.
Local Notation part := (part_answer blake2_128 twox_64 types).
Local Notation parts := (parts_answer blake2_128 twox_64 types).
Local Notation conc := (concat_kind blake2_128 twox_64).

(** What a computation returned, with the position. *)
Definition ended {X A} (x : outcome X A * nat * unit) (r : (A * nat) + X) : Prop :=
  match r with
  | inl (a, q) => fst x = (Ok a, q)
  | inr y => exists q, fst x = (Err y, q)
  end.

Lemma slice_read key p n q : (p <= List.length key)%nat ->
  read_slice (@slice_buffer unit key) p (N.of_nat n) q tt =
    if (p + n <=? List.length key)%nat then (Ok (slice key p n), q, tt)
    else (Err (PBuffer (DataTooShort p (N.of_nat n))), q, tt).
Proof.
  intros Hp. unfold read_slice. cbn [rd slice_buffer]. unfold slice_rd.
  destruct (List.length key <? p)%nat eqn:H1; [lia|].
  destruct (N.of_nat (List.length key) <? N.of_nat p + N.of_nat n)%N eqn:H2;
    destruct (p + n <=? List.length key)%nat eqn:H3; try lia; rewrite ?Nat2N.id; reflexivity.
Qed.

Lemma decode_eq key id p : exists e, decode_with_type (@slice_buffer unit key) (portable types) (Symbol id) propagated_new p tt
  = (decode_at types key id p, e).
Proof.
  rewrite decode_at_fst. destruct (decode_with_type _ _ _ _ _ _) as [[o q] e]. exists e. reflexivity.
Qed.

Lemma decode_bound key id p x q : is_bytes key -> decode_at types key id p = (Ok x, q) -> (p <= List.length key)%nat ->
  (p <= q <= List.length key)%nat.
Proof.
  intros Hb H Hp. rewrite decode_at_hinted in H. apply hinted_sound in H; [|exact Hb].
  destruct H as (v & bs & _ & _ & _ & Hh & ->). destruct (has_len _ _ _ Hh) as [-> |Hl]; [cbn; lia|lia].
Qed.

Lemma part_ok key h id p : is_bytes key -> (p <= List.length key)%nat ->
  exists r, part key h id p r /\ ended (key_part_decode blake2_128 twox_64 h id (slice_buffer key) (portable types) p tt) r.
Proof.
  intros Hb Hp.
  assert (Hop : forall len k n, opaque_kind h = Some (k, n) -> N.of_nat n = len ->
     exists r, part key h id p r /\ ended (cut_hash len k id (@slice_buffer unit key) p tt) r).
  { intros len k n Hk <-. unfold cut_hash, bind, get_pos, map_err. rewrite slice_read by exact Hp.
    destruct (p + n <=? List.length key)%nat eqn:H1.
    - exists (inl (KHash k (slice key p n) id, (p + n)%nat)). split; [apply PA_opaque; [exact Hk|lia]|].
      rewrite slice_length by lia. rewrite N.eqb_refl, Nat2N.id. reflexivity.
    - eexists (inr _). split; [eapply PA_opaque_short; [exact Hk|lia]|]. exists p. reflexivity. }
  assert (Hco : forall len f n, conc h = Some (f, n) -> N.of_nat n = len ->
     exists r, part key h id p r /\ ended (check_hash len f id (slice_buffer key) (portable types) p tt) r).
  { intros len f n Hk <-. unfold check_hash, bind at 1, get_pos at 1. unfold bind at 1, map_err at 1. rewrite slice_read by exact Hp.
    destruct (p + n <=? List.length key)%nat eqn:H1.
    2: { eexists (inr _). split; [eapply PA_concat_short; [exact Hk|lia]|]. exists p. reflexivity. }
    rewrite slice_length by lia. rewrite N.eqb_refl, Nat2N.id. unfold bind at 1, set_pos. unfold bind at 1, map_err at 1.
    destruct (decode_eq key id (p + n)) as [[] ->].
    pose proof (hinted_returns types HNone key id (p + n)) as Hr. rewrite <- decode_at_hinted in Hr.
    destruct (decode_at types key id (p + n)) as [o q] eqn:Hd. cbn [fst] in Hr. destruct Hr as [(x & ->)|(y & ->)].
    2: { eexists (inr _). split; [eapply PA_concat_bad; [exact Hk|lia|exact Hd]|]. exists q. reflexivity. }
    assert (Hle : (p + n <= List.length key)%nat) by lia.
    pose proof (decode_bound _ _ _ _ _ Hb Hd Hle) as Hq.
    unfold bind, get_pos, catch. rewrite slice_read by exact Hle.
    destruct (p + n + (q - (p + n)) <=? List.length key)%nat eqn:H2; [|lia].
    destruct (bytes_eqb (slice key p n) (f (slice key (p + n) (q - (p + n))))) eqn:He.
    - exists (inl (KParsed x, q)). split; [|reflexivity]. eapply PA_concat; [exact Hk|lia|exact Hd|apply bytes_eqb_spec, He].
    - eexists (inr _). split; [eapply PA_mismatch; [exact Hk|lia|exact Hd|apply bytes_eqb_false, He]|]. exists q. reflexivity. }
  destruct h; cbn [key_part_decode]; try (eapply Hop; reflexivity); try (eapply Hco; reflexivity).
  unfold bind, map_err. destruct (decode_eq key id p) as [[] ->].
  pose proof (hinted_returns types HNone key id p) as Hr. rewrite <- decode_at_hinted in Hr.
  destruct (decode_at types key id p) as [o q] eqn:Hd. cbn [fst] in Hr. destruct Hr as [(x & ->)|(y & ->)].
  - exists (inl (KParsed x, q)). split; [apply PA_identity; auto|reflexivity].
  - eexists (inr _). split; [eapply PA_identity_bad; [reflexivity|exact Hd]|]. exists q. reflexivity.
Qed.

Lemma part_bound key h id p x q : is_bytes key -> (p <= List.length key)%nat -> part key h id p (inl (x, q)) ->
  (p <= q <= List.length key)%nat.
Proof.
  intros Hb Hp H. inversion H; subst; try lia.
  - match goal with D : decode_at _ _ _ _ = _ |- _ => pose proof (decode_bound _ _ _ _ _ Hb D) end. lia.
  - match goal with D : decode_at _ _ _ _ = _ |- _ => pose proof (decode_bound _ _ _ _ _ Hb D) end. lia.
Qed.

Lemma ended_split {X A} (x : outcome X A * nat * unit) a q : ended x (inl (a, q)) -> x = (Ok a, q, tt).
Proof. destruct x as [x []]. cbn. congruence. Qed.

Lemma parts_ok key hs : is_bytes key -> forall ids p, List.length ids = List.length hs -> (p <= List.length key)%nat ->
  exists r, parts key (combine hs ids) p r /\ ended (key_parts blake2_128 twox_64 hs ids (slice_buffer key) (portable types) p tt) r.
Proof.
  intros Hb. induction hs as [|h hs IH]; intros [|id ids] p Hl Hp; try discriminate; cbn [combine key_parts].
  - exists (inl ([], p)). split; [constructor|reflexivity].
  - injection Hl as Hl. destruct (part_ok key h id p Hb Hp) as ([[x q]|y] & H1 & H2).
    + pose proof (part_bound _ _ _ _ _ _ Hb Hp H1) as Hq. destruct (IH ids q Hl) as ([[xs q']|y] & H3 & H4); [lia|..].
      * exists (inl (x :: xs, q')). split; [eapply PR_cons; eauto|]. unfold bind.
        rewrite (ended_split _ _ _ H2), (ended_split _ _ _ H4). reflexivity.
      * exists (inr y). split; [eapply PR_later; eauto|]. unfold bind. rewrite (ended_split _ _ _ H2).
        destruct H4 as (q' & H4). destruct (key_parts _ _ _ _ _ _ _ _) as [x0 []]. cbn [fst] in H4. subst x0. exists q'. reflexivity.
    + exists (inr y). split; [apply PR_here, H1|]. unfold bind.
      destruct H2 as (q' & H2). destruct (key_part_decode _ _ _ _ _ _ _ _) as [x0 []]. cbn [fst] in H2. subst x0. exists q'. reflexivity.
Qed.

Definition tuple_body hs kt key : M unit storage_err key_data :=
  do t <- map_err (fun x => ParsingKey (PRegistry x)) (resolve_ty (portable types) kt);
  match t_def t with
  | TTuple elems =>
      if Nat.eqb (List.length elems) (List.length hs) then
        do content <- key_parts blake2_128 twox_64 hs elems (slice_buffer key) (portable types);
        ret (KTuple content (info_from_ty t))
      else fail MultipleHashesNumberMismatch
  | _ => fail MultipleHashesNotATuple
  end.

Lemma key_ok key hs kt start p : is_bytes key -> (start <= List.length key)%nat ->
  exists r, key_answer blake2_128 twox_64 types key hs kt start r /\
    process_key_mapped blake2_128 twox_64 hs kt (slice_buffer key) start (portable types) p tt
      = (match r with inl k => Ok k | inr y => Err y end, p, tt).
Proof.
  intros Hb Hlen. unfold process_key_mapped, bind at 1, at_local, process_key_body.
  destruct (Nat.eq_dec (List.length hs) 1) as [H1|H1].
  - destruct hs as [|h [|]]; try discriminate. unfold bind.
    destruct (part_ok key h kt start Hb Hlen) as ([[x q]|y] & H2 & H3).
    + rewrite (ended_split _ _ _ H3). unfold ret, get_pos, fail. cbn [total_len slice_buffer].
      destruct (Nat.eqb q (List.length key)) eqn:Hq.
      * exists (inl (KSingle x)). split; [|reflexivity]. apply Nat.eqb_eq in Hq. subst q. eapply KA_single; eauto.
      * exists (inr KeyPartsUnused). split; [|reflexivity]. eapply KA_single_unused; eauto. apply Nat.eqb_neq, Hq.
    + destruct H3 as (q & H3). destruct (key_part_decode _ _ _ _ _ _ _ _) as [x0 []]. cbn [fst] in H3. subst x0.
      exists (inr y). split; [eapply KA_single_bad; eauto|reflexivity].
  - assert (Hgo : exists r, key_answer blake2_128 twox_64 types key hs kt start r /\
     (let '(o, q, e') := tuple_body hs kt key start tt in
        match o with
        | Ok k => if Nat.eqb q (List.length key) then r = inl k else r = inr KeyPartsUnused
        | Err y => r = inr y
        | _ => False
        end)).
    { unfold tuple_body, bind, map_err, resolve_ty. cbn [resolve portable]. unfold portable_resolve.
      destruct (lookup types kt) as [t|] eqn:Hl; [|exists (inr (ParsingKey (PRegistry (RInternal (TypeNotResolved kt))))); split; [apply KA_unresolved; auto|reflexivity]].
      destruct (t_def t) as [| | | |elems| | |] eqn:Ht;
        try (exists (inr MultipleHashesNotATuple); split; [eapply KA_not_tuple; eauto; congruence|reflexivity]).
      destruct (Nat.eqb (List.length elems) (List.length hs)) eqn:He.
      2: { exists (inr MultipleHashesNumberMismatch). split; [|reflexivity]. eapply KA_number; eauto. apply Nat.eqb_neq, He. }
      apply Nat.eqb_eq in He. destruct (parts_ok key hs Hb elems start He Hlen) as ([[xs q]|y] & H2 & H3).
      - rewrite (ended_split _ _ _ H3). unfold ret. destruct (Nat.eqb q (List.length key)) eqn:Hq.
        + eexists. split; [|reflexivity]. apply Nat.eqb_eq in Hq. subst q. unfold info_from_ty.
          change (collect_docs (t_docs t)) with (docs_text (t_docs t)). eapply KA_tuple; eauto.
        + eexists. split; [|reflexivity]. eapply KA_tuple_unused; eauto. apply Nat.eqb_neq, Hq.
      - destruct H3 as (q & H3). destruct (key_parts _ _ _ _ _ _ _ _) as [x0 []]. cbn [fst] in H3. subst x0.
        exists (inr y). split; [eapply KA_tuple_bad; eauto|reflexivity]. }
    destruct Hgo as (r & Hr & Hgo). exists r. split; [exact Hr|].
    replace (match hs with [h] => _ | _ => _ end) with (tuple_body hs kt key)
      by (destruct hs as [|h [|]]; [reflexivity|contradiction|reflexivity]).
    unfold bind at 1. destruct (tuple_body hs kt key start tt) as [[o q] []].
    destruct o as [k|y| |]; try contradiction.
    + unfold bind, get_pos. cbn [total_len slice_buffer]. destruct (Nat.eqb q (List.length key)); subst r; reflexivity.
    + subst r. reflexivity.
Qed.

Lemma value_eq value id p : exists e, decode_all_m (@slice_buffer unit value) (portable types) id p tt = (decode_all types value id, p, e).
Proof.
  unfold decode_all_m, bind, at_local, decode_all, decode_all_as_type.
  destruct (decode_all_body (slice_buffer value) (portable types) id 0 tt) as [[[x|x| |] q] e]; eexists; reflexivity.
Qed.

Lemma value_returns value id : returns (decode_all types value id).
Proof.
  pose proof (whole_blob types value id) as H. destruct (decode_at types value id 0) as [[x|x| |] q]; try contradiction.
  - destruct (Nat.eqb q _); rewrite H; unfold returns; eauto.
  - rewrite H. unfold returns; eauto.
Qed.

Theorem storage_answer key value entry : is_bytes key ->
  entry_answer blake2_128 twox_64 types key value entry (storage_entry blake2_128 twox_64 types key value entry).
Proof.
  intros Hb. unfold storage_entry, decode_as_storage_entry. cbv zeta. change PREFIX_LEN with 32%nat.
  change (collect_docs (en_docs entry)) with (docs_text (en_docs entry)). cbn [total_len slice_buffer].
  destruct (List.length key <? 32)%nat eqn:H1; [apply EA_short; lia|].
  destruct (en_ty entry) as [vt|hs kt vt] eqn:Ht.
  - destruct (negb (Nat.eqb 32 (List.length key))) eqn:H2; [eapply EA_exceeds; [lia|exact Ht]|].
    unfold bind, map_err. destruct (value_eq value vt 0) as [e ->].
    destruct (value_returns value vt) as [(x & H3)|(x & H3)]; rewrite H3; cbn [fst ret].
    + eapply EA_plain; eauto. lia.
    + eapply EA_plain_bad; eauto. lia.
  - unfold bind at 1.
    change PREFIX_LEN with 32%nat.
    destruct (key_ok key hs kt 32 0 Hb) as (r & Hr & ->); [lia|]. destruct r as [k|y].
    + unfold bind, map_err. destruct (value_eq value vt 0) as [e ->].
      destruct (value_returns value vt) as [(x & H3)|(x & H3)]; rewrite H3; cbn [fst ret].
      * eapply EA_map; eauto. lia.
      * eapply EA_value_bad; eauto. lia.
    + cbn [fst]. eapply EA_key_bad; eauto. lia.
Qed.

(** *** The answer is unique *)

Lemma part_unique key h id p r1 r2 : part key h id p r1 -> part key h id p r2 -> r1 = r2.
Proof.
  intros H1 H2. destruct H1, H2; try congruence;
    try (destruct h; discriminate);
    repeat match goal with
    | A : opaque_kind h = Some _, B : opaque_kind h = Some _ |- _ => rewrite A in B; injection B as <- <-
    | A : conc h = Some _, B : conc h = Some _ |- _ => rewrite A in B; injection B as <- <-
    end; try reflexivity; try lia; try congruence;
    match goal with A : decode_at _ _ _ _ = _, B : decode_at _ _ _ _ = _ |- _ => rewrite A in B; try discriminate; injection B as <- <- end;
    congruence.
Qed.

Lemma parts_unique key l : forall p r1 r2, parts key l p r1 -> parts key l p r2 -> r1 = r2.
Proof.
  induction l as [|[h id] l IH]; intros p r1 r2 H1 H2; inversion H1; subst; inversion H2; subst; try reflexivity;
    match goal with A : part key h id p _, B : part key h id p _ |- _ => pose proof (part_unique _ _ _ _ _ _ A B) as He end;
    try discriminate; try congruence; injection He as <- <-;
    match goal with A : parts key l _ _, B : parts key l _ _ |- _ => pose proof (IH _ _ _ A B) as He end; congruence.
Qed.

Lemma key_unique key hs kt start r1 r2 :
  key_answer blake2_128 twox_64 types key hs kt start r1 -> key_answer blake2_128 twox_64 types key hs kt start r2 -> r1 = r2.
Proof.
  intros H1 H2. destruct H1; subst; inversion H2; subst; try congruence; try (cbn in *; congruence); try lia;
    try (match goal with A : [_] = [_] |- _ => injection A as -> end);
    try (match goal with A : lookup types kt = Some ?x, B : lookup types kt = Some ?y |- _ =>
           assert (x = y) by congruence; subst y end);
    try (match goal with A : t_def ?t = TTuple ?x, B : t_def ?t = TTuple ?y |- _ =>
           assert (x = y) by congruence; subst y end);
    try congruence;
    try (match goal with A : part key _ kt start _, B : part key _ kt start _ |- _ => pose proof (part_unique _ _ _ _ _ _ A B) end; congruence);
    try (match goal with A : parts key _ start _, B : parts key _ start _ |- _ => pose proof (parts_unique _ _ _ _ _ A B) end; congruence).
Qed.

Theorem entry_unique key value entry o1 o2 : entry_answer blake2_128 twox_64 types key value entry o1 ->
  entry_answer blake2_128 twox_64 types key value entry o2 -> o1 = o2.
Proof.
  intros H1 H2. destruct H1, H2; try reflexivity; try lia; try congruence;
    (match goal with A : en_ty entry = EMap ?a ?b ?c, B : en_ty entry = EMap ?d ?x ?f |- _ =>
           assert (a = d /\ b = x /\ c = f) as (? & ? & ?) by (rewrite A in B; injection B; auto); subst end);
    match goal with A : key_answer _ _ _ _ _ _ _ _, B : key_answer _ _ _ _ _ _ _ _ |- _ => pose proof (key_unique _ _ _ _ _ _ A B) end;
    congruence.
Qed.

(** *** In terms of values *)

Local Notation piece := (piece blake2_128 twox_64 types).
Local Notation pieces := (pieces blake2_128 twox_64 types).

Lemma slice_all (l : bytes) : slice l 0 (List.length l) = l.
Proof. unfold slice. cbn [skipn]. apply firstn_all. Qed.

Lemma slice_split (l : bytes) p q q' : (p <= q <= q')%nat ->
  slice l p (q' - p) = slice l p (q - p) ++ slice l q (q' - q).
Proof.
  intros H. unfold slice. replace (q' - p)%nat with ((q - p) + (q' - q))%nat by lia.
  generalize (q' - q)%nat as m. intros m. replace (skipn q l) with (skipn (q - p) (skipn p l)).
  - generalize (skipn p l) as s. generalize (q - p)%nat as n. clear. induction n as [|n IH]; intros s; [reflexivity|].
    destruct s as [|x s]; [cbn [skipn firstn Nat.add]; rewrite firstn_nil; reflexivity|].
    cbn [Nat.add firstn skipn app]. rewrite IH. reflexivity.
  - replace q with (p + (q - p))%nat at 2 by lia. generalize (q - p)%nat as n. clear. revert l. induction p as [|p IH]; intros l n; [reflexivity|].
    destruct l as [|x l]; [cbn [skipn Nat.add]; apply skipn_nil|]. apply IH.
Qed.

Lemma decode_encodes key id p x q : is_bytes key -> decode_at types key id p = (Ok x, q) ->
  encodes types id (slice key p (q - p)) x.
Proof.
  intros Hb H. destruct (only_what_is_there types _ _ _ _ _ Hb H) as (v & H1 & H2 & _). exists v. auto.
Qed.

Lemma part_sound key h id p x q : is_bytes key -> (p <= List.length key)%nat -> part key h id p (inl (x, q)) ->
  piece h id (slice key p (q - p)) x.
Proof.
  intros Hb Hp H. inversion H as [k n Hk Hn|?|?|?|?|f n y q' Hk Hn Hd Hs|?|y q' Hi Hd]; subst.
  - replace (p + n - p)%nat with n by lia. eapply P_opaque; [exact Hk|]. apply slice_length; lia.
  - pose proof (decode_bound _ _ _ _ _ Hb Hd Hn) as Hq.
    rewrite (slice_split key p (p + n) q) by lia. replace (p + n - p)%nat with n by lia. rewrite Hs.
    eapply P_concat; [exact Hk| |].
    + rewrite <- Hs. apply slice_length; lia.
    + apply decode_encodes; auto.
  - apply P_identity; auto. apply decode_encodes; auto.
Qed.

Lemma parts_sound key hs : is_bytes key -> forall ids p xs q, List.length ids = List.length hs -> (p <= List.length key)%nat ->
  parts key (combine hs ids) p (inl (xs, q)) ->
  exists l, pieces hs ids l xs /\ List.concat l = slice key p (q - p) /\ (p <= q <= List.length key)%nat.
Proof.
  intros Hb. induction hs as [|h hs IH]; intros [|id ids] p xs q Hl Hp H; try discriminate; cbn [combine] in H; inversion H; subst.
  - exists []. rewrite Nat.sub_diag. repeat split; [constructor|lia|lia].
  - injection Hl as Hl. match goal with A : part key _ _ _ _ |- _ => pose proof (part_sound _ _ _ _ _ _ Hb Hp A); pose proof (part_bound _ _ _ _ _ _ Hb Hp A) end.
    edestruct IH as (l & Ha & Hb2 & Hc); [exact Hl| |eassumption|]; [lia|].
    eexists (_ :: l). split; [constructor; eauto|]. split; [|lia]. cbn [List.concat]. rewrite Hb2. symmetry. apply slice_split; lia.
Qed.

Lemma slice_rest (key : bytes) p : (p <= List.length key)%nat -> slice key p (List.length key - p) = skipn p key.
Proof. intros H. unfold slice. apply firstn_all2. rewrite skipn_length. lia. Qed.

Lemma key_sound key hs kt start k : is_bytes key -> (start <= List.length key)%nat ->
  key_answer blake2_128 twox_64 types key hs kt start (inl k) -> map_key blake2_128 twox_64 types hs kt (skipn start key) k.
Proof.
  intros Hb Hl Hk. inversion Hk as [h y Hh Hp| | | | | |t ids xs Hh Hlk Hd2 Hn Hp| |]; subst.
  - apply MK_single with (h := h); [reflexivity|]. rewrite <- slice_rest by exact Hl. apply part_sound; auto.
  - destruct (parts_sound key hs Hb ids start xs _ Hn Hl Hp) as (l & H1 & H2 & _).
    rewrite <- slice_rest by exact Hl. rewrite <- H2. eapply MK_tuple; eauto.
Qed.

Theorem storage_sound key value entry s : is_bytes key -> is_bytes value ->
  storage_entry blake2_128 twox_64 types key value entry = Ok s ->
  entry_matches blake2_128 twox_64 types key value (en_ty entry) (st_key s) (st_value s) /\
  st_docs s = docs_text (en_docs entry).
Proof.
  intros Hb Hv H. pose proof (storage_answer key value entry Hb) as Ha. rewrite H in Ha.
  assert (Hval : forall id x, decode_all types value id = Ok x -> encodes types id value x).
  { intros id x Hx. destruct (whole_blob_value types _ _ _ Hv Hx) as (v & Hx'). exists v. exact Hx'. }
  inversion Ha as [| | |vt x Hl Ht Hd| | |hs kt vt k x Hl Ht Hk Hd]; subst; cbn [st_key st_value st_docs]; rewrite Ht; split; try reflexivity.
  - constructor; auto.
  - apply EM_map with (prefix := firstn 32 key) (rest := skipn 32 key); auto.
    + symmetry. apply firstn_skipn.
    + rewrite firstn_length. lia.
    + apply key_sound; auto.
Qed.

(** *** Completeness *)

Hypothesis Hac : acyclic types.

Lemma encodes_decodes id bs x pre post : encodes types id bs x -> is_bytes (pre ++ post) ->
  decode_at types (pre ++ bs ++ post) id (List.length pre) = (Ok x, (List.length pre + List.length bs)%nat).
Proof.
  intros (v & He & Hv) Hb. destruct x as [d l]. apply (round_trip_acyclic types id v bs d l pre post); auto.
Qed.

Lemma slice_mid (pre bs post : bytes) : slice (pre ++ bs ++ post) (List.length pre) (List.length bs) = bs.
Proof. unfold slice. rewrite skipn_app_exact. apply firstn_app_exact. Qed.

Lemma part_complete h id bs x pre post : is_bytes (pre ++ bs ++ post) -> piece h id bs x ->
  part (pre ++ bs ++ post) h id (List.length pre) (inl (x, (List.length pre + List.length bs)%nat)).
Proof.
  intros Hb H. inversion H as [k n bs' Hk Hn|f n content y Hk Hn He|bs' y Hi He]; subst.
  - rewrite <- (slice_mid pre bs post) at 2. eapply PA_opaque; [exact Hk|]. rewrite !app_length. lia.
  - assert (Hd : decode_at types (pre ++ (f content ++ content) ++ post) id (List.length pre + List.length (f content)) =
       (Ok y, (List.length pre + List.length (f content ++ content))%nat)).
    { pose proof (encodes_decodes id content y (pre ++ f content) post He) as Hd.
      rewrite !app_length in *. rewrite !Nat.add_assoc, <- !app_assoc in *. apply Hd.
      rewrite !is_bytes_app in *. tauto. }
    eapply PA_concat; [exact Hk| |exact Hd|].
    + rewrite !app_length. lia.
    + rewrite <- app_assoc, slice_mid. f_equal. rewrite (app_assoc pre).
      replace (List.length pre + List.length (f content))%nat with (List.length (pre ++ f content)) by (rewrite app_length; reflexivity).
      replace (_ - _)%nat with (List.length content) by (rewrite !app_length; lia). symmetry. apply slice_mid.
  - apply PA_identity; [reflexivity|]. apply encodes_decodes; auto. rewrite !is_bytes_app in *. tauto.
Qed.

Lemma parts_complete hs ids l xs : pieces hs ids l xs -> forall pre, is_bytes (pre ++ List.concat l) ->
  parts (pre ++ List.concat l) (combine hs ids) (List.length pre) (inl (xs, List.length (pre ++ List.concat l))) /\
  List.length ids = List.length hs.
Proof.
  induction 1 as [|h id bs x hs ids l xs Hp Hps IH]; intros pre Hb.
  - cbn [List.concat combine]. rewrite app_nil_r. split; [constructor|reflexivity].
  - cbn [List.concat combine List.length] in *. destruct (IH (pre ++ bs)) as [H1 H2]; [rewrite <- app_assoc; exact Hb|].
    rewrite <- app_assoc in H1. split; [|congruence].
    eapply PR_cons; [apply part_complete; eauto|]. rewrite app_length in H1. exact H1.
Qed.

Lemma encodes_whole id value x : encodes types id value x -> decode_all types value id = Ok x.
Proof.
  intros H. pose proof (encodes_decodes id value x [] [] H (Forall_nil _)) as Hd. cbn [app List.length Nat.add] in Hd. rewrite app_nil_r in Hd.
  pose proof (whole_blob types value id) as Hw. rewrite Hd, Nat.eqb_refl in Hw. exact Hw.
Qed.

Lemma key_complete hs kt prefix rest k : is_bytes (prefix ++ rest) -> map_key blake2_128 twox_64 types hs kt rest k ->
  key_answer blake2_128 twox_64 types (prefix ++ rest) hs kt (List.length prefix) (inl k).
Proof.
  intros Hb Hm. inversion Hm as [h bs z Hh Hpc|t ids l xs Hh Hlk Hd Hps]; subst.
  - apply KA_single with (h := h); [reflexivity|]. pose proof (part_complete h kt rest z prefix []) as Hc.
    rewrite !app_nil_r in Hc. rewrite app_length. apply Hc; auto.
  - destruct (parts_complete hs ids l xs Hps prefix Hb) as [H1 H2]. eapply KA_tuple; eauto.
Qed.

Theorem storage_complete key value entry k x : is_bytes key ->
  entry_matches blake2_128 twox_64 types key value (en_ty entry) k x ->
  storage_entry blake2_128 twox_64 types key value entry = Ok (Storage k x (docs_text (en_docs entry))).
Proof.
  intros Hb H. apply (entry_unique key value entry); [apply storage_answer, Hb|].
  inversion H as [vt y Hl He Ht|hs kt vt prefix rest k' y Hk Hp Hm He Ht]; subst.
  - eapply EA_plain; eauto. apply encodes_whole, He.
  - eapply EA_map; eauto; [rewrite app_length; lia| |apply encodes_whole, He].
    rewrite <- Hp. apply key_complete; auto.
Qed.
End Proof.
