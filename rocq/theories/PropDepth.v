(** C68: how deep parsed data nests and how far its cards are indented.  Only statements and
    examples; proofs in ProofDepth.v, specification in SpecDepth.v. *)
From Coq Require Import Lia ZifyNat ZifyN.
From Verif Require Import Base Compact Types Indicators Decode Sign Unchecked Storage Cards Spec SpecWf SpecUnchecked SpecDepth Api ApiSign ApiStorage
  ProofBase ProofDepth ProofDepth2 CheckDepth CheckWf PropDecode Sample SampleChain.
From Verif Require TestWestend.
Local Open Scope string_scope.
Local Open Scope list_scope.

(** ** Levels *)

(** Whatever the memory: at most so many levels as the length of the data and the number of types allow. *)
Theorem c68_levels : forall E (b : buffer E) (r : registry E) id pos e x q e',
  decode_as_type_at_position b r id pos e = (Ok x, q, e') ->
  (levels (x_data x) <= most_levels (reg_bound r) (total_len b))%nat.
Proof. intros E b r id pos e x q e' H. exact (decode_levels b r (Symbol id) propagated_new _ _ _ _ _ H). Qed.
Print Assumptions c68_levels.

(** In memory only the bytes consumed count. *)
Theorem c68_consumed : forall types data id pos x q, is_bytes data -> decode_at types data id pos = (Ok x, q) ->
  (levels (x_data x) <= most_levels (List.length types) (q - pos))%nat.
Proof.
  intros types data id pos x q Hb H. pose proof (c06_locality types data id pos x q [] [] Hb (Forall_nil _) H) as L.
  rewrite app_nil_l, app_nil_r in L. unfold decode_at in L at 1.
  destruct (decode_as_type_at_position (slice_buffer (slice data pos (q - pos))) (portable types) id (List.length ([] : bytes)) tt) as [[o p] e] eqn:D.
  injection L as -> _. apply c68_levels in D. change (reg_bound (portable types)) with (List.length types) in D.
  change (total_len (slice_buffer (slice data pos (q - pos)))) with (List.length (slice data pos (q - pos))) in D.
  etransitivity; [exact D|]. unfold most_levels. apply le_n_S, Nat.mul_le_mono_r, le_n_S.
  unfold slice. rewrite firstn_length. lia.
Qed.
Print Assumptions c68_consumed.

Theorem c68_transaction : forall ME (c : chain ME) g data t, transaction c g data = Ok t ->
  Forall (fun x => (levels (x_data x) <= most_levels (List.length (ch_types c)) (List.length data))%nat) (tp_extensions t) /\
  forall call, tp_call t = inl call -> (levels (DCall call) <= most_levels (List.length (ch_types c)) (List.length data))%nat.
Proof.
  intros ME c g data t H. unfold transaction, result in H.
  destruct (parse_transaction (slice_buffer data) (chain_metadata c) g 0 tt) as [[o p] e] eqn:D. cbn [fst] in H. subst o.
  destruct (transaction_levels _ _ g _ _ _ _ _ D) as [A B]. split; [exact A|]. intros call Hc. rewrite Hc in B. exact B.
Qed.
Print Assumptions c68_transaction.

Theorem c68_unmarked : forall ME (c : chain ME) g data call xs, transaction_unmarked c g data = Ok (call, xs) ->
  (levels (DCall call) <= most_levels (List.length (ch_types c)) (List.length data))%nat /\
  Forall (fun x => (levels (x_data x) <= most_levels (List.length (ch_types c)) (List.length data))%nat) xs.
Proof.
  intros ME c g data call xs H. unfold transaction_unmarked, result in H.
  destruct (parse_transaction_unmarked (slice_buffer data) (chain_metadata c) g 0 tt) as [[o p] e] eqn:D. cbn [fst] in H. subst o.
  exact (unmarked_levels _ _ g _ _ _ _ _ D).
Qed.
Print Assumptions c68_unmarked.

Theorem c68_unchecked : forall ME (c : chain ME) data u, unchecked_extrinsic c data = Ok u ->
  let ok d := (levels d <= most_levels (List.length (ch_types c)) (List.length data))%nat in
  match u with
  | UxSigned address signature extra call => ok (x_data address) /\ ok (x_data signature) /\ ok (x_data extra) /\ ok (DCall call)
  | UxUnsigned call => ok (DCall call)
  end.
Proof.
  intros ME c data u H. unfold unchecked_extrinsic, result in H.
  destruct (decode_as_unchecked_extrinsic (slice_buffer data) (chain_metadata c) 0 tt) as [[o p] e] eqn:D. cbn [fst] in H. subst o.
  pose proof (unchecked_levels _ _ _ _ _ _ _ D) as G. destruct u; exact G.
Qed.
Print Assumptions c68_unchecked.

Theorem c68_storage : forall blake2_128 twox_64 types key value entry s,
  storage_entry blake2_128 twox_64 types key value entry = Ok s ->
  (levels (x_data (st_value s)) <= most_levels (List.length types) (List.length value))%nat /\
  let ok k := match k with KHash _ _ _ => True | KParsed x => (levels (x_data x) <= most_levels (List.length types) (List.length key))%nat end in
  match st_key s with KPlain => True | KSingle k => ok k | KTuple l _ => Forall ok l end.
Proof.
  intros h1 h2 types key value entry s H. unfold storage_entry in H.
  destruct (decode_as_storage_entry h1 h2 (slice_buffer key) (slice_buffer value) entry (portable types) 0 tt) as [[o p] e] eqn:D. cbn [fst] in H. subst o.
  destruct (storage_levels h1 h2 (portable types) _ _ _ _ _ _ _ _ D) as [A B]. split; [exact B|]. cbv zeta. destruct (st_key s); exact A.
Qed.
Print Assumptions c68_storage.

(** A type whose chains of mentioned types have at most [n] steps gives at most [n + 1] levels,
    however long the data. *)
Theorem c68_by_type : forall types data id pos x q n, is_bytes data -> decode_at types data id pos = (Ok x, q) ->
  (forall k, below types id k -> (k <= n)%nat) -> (levels (x_data x) <= S n)%nat.
Proof.
  intros types data id pos x q n Hb H Hn. destruct (c04_sound _ _ _ _ _ _ Hb H) as (v & _ & Hv & _).
  exact (view_levels types v false HNone id _ _ n Hn Hv).
Qed.
Print Assumptions c68_by_type.

(** In the Westend metadata 556 of 597 types do not contain themselves, and none of these gives
    more than 13 levels. *)
Lemma capped l i n (k : N) : forallb (fun x => match x with Some a => (a <=? k)%N | None => true end) l = true ->
  nth i l None = Some n -> (n <= k)%N.
Proof.
  revert i. induction l as [|x l IH]; intros [|i]; cbn [forallb nth]; try discriminate.
  - intros H ->. apply andb_true_iff in H. destruct H as [H _]. apply N.leb_le. exact H.
  - intros H. apply andb_true_iff in H. destruct H as [_ H]. apply IH. exact H.
Qed.

Definition westend_depths : list (option N) := Eval vm_compute in depths TestWestend.md_types 14.
Lemma westend_depths_eq : depths TestWestend.md_types 14 = westend_depths.
Proof. vm_compute. reflexivity. Qed.

Example c68_westend : List.length (filter (fun x => match x with Some _ => true | None => false end) westend_depths) = 556%nat /\
  forall data id pos x q, is_bytes data -> nth (N.to_nat id) westend_depths None <> None ->
  decode_at TestWestend.md_types data id pos = (Ok x, q) -> (levels (x_data x) <= 13)%nat.
Proof.
  split; [vm_compute; reflexivity|]. intros data id pos x q Hb Hid H.
  destruct (nth (N.to_nat id) westend_depths None) as [n|] eqn:Hn; [|contradiction]. clear Hid.
  refine (c68_by_type _ _ _ _ _ _ 12 Hb H _). intros k Hk.
  pose proof (depths_ok TestWestend.md_types 14 id n) as G. rewrite westend_depths_eq in G. specialize (G Hn k Hk).
  pose proof (capped westend_depths (N.to_nat id) n 12 ltac:(vm_compute; reflexivity) Hn). lia.
Qed.

(** ** There is no other limit *)

(** Data type `enum Nest { End, More(Nest) }`, alone in its registry. *)
Definition nest : list ty :=
  [Ty [] [] (TVariant [Variant "End" [] 0 []; Variant "More" [Field None 0 None []] 1 []]) []].
Fixpoint nested (n : nat) : value := match n with O => VEnum 0 [] | S k => VEnum 1 [nested k] end.
Fixpoint nested_shown (n : nat) : pdata :=
  match n with
  | O => DVariant (VData "End" "" [])
  | S k => DVariant (VData "More" "" [FData None None "" (Ext (nested_shown k) [])])
  end.

Lemma nested_enc n : enc nest false 0 (nested n) = Some (repeat 1%N n ++ [0%N]).
Proof.
  induction n as [|n IH]; [reflexivity|]. cbn [nested].
  change (enc nest false 0 (VEnum 1 [nested n])) with
    (match (match enc nest false 0 (nested n) with Some b => Some (b ++ []) | None => None end) with Some b => Some (1%N :: b) | None => None end).
  rewrite IH. rewrite app_nil_r. reflexivity.
Qed.
Lemma nested_view n : view nest false HNone 0 (nested n) = Some (nested_shown n, []).
Proof.
  induction n as [|n IH]; [reflexivity|]. cbn [nested nested_shown].
  change (view nest false HNone 0 (VEnum 1 [nested n])) with
    (match (match option_map (field_form (Field None 0 None [])) (view nest false HNone 0 (nested n)) with Some a => Some [a] | None => None end) with
     | Some l => Some (DVariant (VData "More" "" l), ([] : list info)) | None => None end).
  rewrite IH. reflexivity.
Qed.

(** [n] bytes 1 and a byte 0 are decoded to [n + 1] levels, for every [n]. *)
Theorem c68_deep : forall n, exists d l, decode_all nest (repeat 1%N n ++ [0%N]) 0 = Ok (Ext d l) /\ levels d = S n.
Proof.
  intros n. exists (nested_shown n), []. split.
  - assert (Hwf : well_formed nest) by (apply (wf_ranked_ok _ (ranks nest 2)); vm_compute; reflexivity).
    destruct (c03_round_trip nest 0 (nested n) _ [] [] Hwf (nested_enc n) (Forall_nil _)) as (d & l & Hv & Hd).
    rewrite nested_view in Hv. injection Hv as <- <-. cbn [List.length] in Hd. rewrite app_nil_l, app_nil_r in Hd.
    pose proof (c14_whole_blob nest (repeat 1%N n ++ [0%N]) 0) as A. rewrite Hd in A. rewrite Nat.add_0_l, Nat.eqb_refl in A. exact A.
  - induction n as [|n IH]; [reflexivity|]. cbn. rewrite IH. lia.
Qed.
Print Assumptions c68_deep.

(** ** Indents *)

(** The cards of data shown at an indent have at least that indent, and exceed it by less than
    three for each level. *)
Theorem c68_indents : forall base58 identicon specs name x indent balance c,
  In c (card_ext base58 identicon specs name x indent balance) ->
  (indent <= ec_indent c < indent + 3 * levels (x_data x))%nat.
Proof.
  intros base58 identicon specs name x indent balance c Hc. unfold card_ext, card_ext_with in Hc.
  exact (proj1 (Forall_forall _ _) (card_below base58 identicon specs name (x_data x) (map flatten (x_info x)) indent balance) c Hc).
Qed.
Print Assumptions c68_indents.

Theorem c68_call_indents : forall base58 identicon specs name call indent c,
  In c (card_call base58 identicon specs name call indent) ->
  (indent <= ec_indent c < indent + 3 * levels (DCall call))%nat.
Proof.
  intros base58 identicon specs name call indent c Hc.
  exact (proj1 (Forall_forall _ _) (card_below base58 identicon specs name (DCall call) [] indent true) c Hc).
Qed.
Print Assumptions c68_call_indents.

Lemma indents_fit n lv k t i : (N.of_nat n < 2 ^ 30)%N -> (N.of_nat k * (N.of_nat t + 3) < 2 ^ 30)%N ->
  (lv <= S (k * (t + 3)))%nat -> (i < n + 3 * lv)%nat -> (N.of_nat i < 2 ^ 32)%N.
Proof.
  change (2 ^ 32)%N with (4 * 2 ^ 30)%N. generalize (2 ^ 30)%N. intros P Hn Hk Hl Hi.
  assert (N.of_nat lv <= N.of_nat k * (N.of_nat t + 3) + 1)%N as Hl' by lia. lia.
Qed.

(** So the 32 bits of the indent are enough for all data of less than 2^30 / (types + 3) bytes. *)
Theorem c68_u32 : forall types data id pos x q base58 identicon specs name indent balance c,
  is_bytes data -> decode_at types data id pos = (Ok x, q) ->
  (N.of_nat indent < 2 ^ 30)%N -> (N.of_nat (S (q - pos)) * (N.of_nat (List.length types) + 3) < 2 ^ 30)%N ->
  In c (card_ext base58 identicon specs name x indent balance) -> (N.of_nat (ec_indent c) < 2 ^ 32)%N.
Proof.
  intros types data id pos x q base58 identicon specs name indent balance c Hb H Hi Hn Hc.
  apply c68_indents in Hc. apply c68_consumed in H; [|exact Hb]. unfold most_levels in H.
  apply (indents_fit indent (levels (x_data x)) (S (q - pos)) (List.length types) (ec_indent c)); lia.
Qed.
Print Assumptions c68_u32.

(** The hypotheses are met: three nested enums, their cards, and the bound. *)
Example c68_example : exists x, decode_at nest [1; 1; 0]%N 0 0 = (Ok x, 3%nat) /\ levels (x_data x) = 3%nat /\
  most_levels (List.length nest) 3 = 17%nat /\
  map ec_indent (card_ext (fun _ _ _ => "") (fun _ => []) (ShortSpecs 42 12 "WND") "westend" x 5 true) = [5; 6; 7; 8; 9; 10]%nat.
Proof. eexists. split; [vm_compute; reflexivity|]. vm_compute. repeat split. Qed.
