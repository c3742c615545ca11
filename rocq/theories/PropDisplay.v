(** C74: the parameters of the display only format; nested values are displayed as on their
    own; the number of cards is bounded.  Specification in SpecDisplay.v, proofs in
    ProofDisplay.v.

    [base58] and [identicon] are the address format and the identicon renderer, arbitrary
    functions; [s1], [s2] are chain specs, [n1], [n2] chain names, [f1], [f2] tell whether
    balances outside of calls and events are in units of the chain. *)
From Verif Require Import Base Compact Types Decode Sign Balance Cards Spec SpecBalance SpecCards SpecWf SpecSize SpecDisplay
  Api ApiSign ProofCards ProofSize2 ProofDisplay SampleChain PropCards.
Local Open Scope string_scope.
Local Open Scope list_scope.

(** The cards for two sets of parameters: as many, at the same indents, with the same type
    information, showing the same values. *)
Theorem c74_formats : forall base58 identicon s1 s2 n1 n2 d inf indent f1 f2,
  Forall2 (same_place base58 identicon s1 s2 n1 n2 f1 f2)
    (card base58 identicon s1 n1 d inf indent f1) (card base58 identicon s2 n2 d inf indent f2).
Proof. intros. apply fine_all. Qed.
Print Assumptions c74_formats.

(** Two cards at the same place differ only if they are addresses of one kind and the
    prefixes differ, or amounts and decimals or units differ, or the chain name and the names
    differ, or a balance in units and a plain one as requested. *)
Theorem c74_differ : forall base58 identicon s1 s2 n1 n2 d inf indent f1 f2 k a b,
  nth_error (card base58 identicon s1 n1 d inf indent f1) k = Some a ->
  nth_error (card base58 identicon s2 n2 d inf indent f2) k = Some b ->
  a <> b -> ec_indent a = ec_indent b /\ ec_info a = ec_info b /\ differ_only s1 s2 n1 n2 f1 f2 (ec_card a) (ec_card b).
Proof.
  intros until b. intros Ha Hb Hn.
  destruct (f2_nth _ _ _ (c74_formats base58 identicon s1 s2 n1 n2 d inf indent f1 f2) k a b Ha Hb) as (H1 & H2 & H3).
  split; [exact H1|]. split; [exact H2|]. apply (ref_differ base58 identicon); [exact H3|].
  intros E. apply Hn. destruct a, b. cbn in *. congruence.
Qed.
Print Assumptions c74_differ.

(** The same for transactions. *)
Theorem c74_transaction : forall ME base58 identicon s1 s2 n1 n2 (t : transaction_parsed ME),
  let '(c1, e1) := card_transaction base58 identicon s1 n1 t in
  let '(c2, e2) := card_transaction base58 identicon s2 n2 t in
  Forall2 (same_place base58 identicon s1 s2 n1 n2 true true) e1 e2 /\
  match c1, c2 with
  | inl l1, inl l2 => Forall2 (same_place base58 identicon s1 s2 n1 n2 true true) l1 l2
  | inr x1, inr x2 => x1 = x2
  | _, _ => False
  end.
Proof.
  intros. cbn. split; [apply fine_extensions|]. destruct (tp_call t) as [c|x]; [|reflexivity].
  exact (fine_all base58 identicon s1 s2 n1 n2 (DCall c) [] 0 true true).
Qed.
Print Assumptions c74_transaction.

Theorem c74_transaction_unmarked : forall base58 identicon s1 s2 n1 n2 call exts,
  let '(c1, e1) := card_transaction_unmarked base58 identicon s1 n1 call exts in
  let '(c2, e2) := card_transaction_unmarked base58 identicon s2 n2 call exts in
  Forall2 (same_place base58 identicon s1 s2 n1 n2 true true) c1 c2 /\
  Forall2 (same_place base58 identicon s1 s2 n1 n2 true true) e1 e2.
Proof.
  intros. cbn. split; [|apply fine_extensions].
  exact (fine_all base58 identicon s1 s2 n1 n2 (DCall call) [] 0 true true).
Qed.
Print Assumptions c74_transaction_unmarked.

(** The batch of PropCards.v for other specs, another name and without units: the amounts are
    the same in other units; in the Utility call there are no units in either case. *)
Definition other_specs := ShortSpecs 0 10 "DOT".
Example c74_formats_example :
  let l1 := card no_base58 (fun b => b) unit_specs "westend" batch [] 3 true in
  let l2 := card no_base58 (fun b => b) other_specs "polkadot" batch [] 3 false in
  List.length l1 = 15%nat /\
  map (fun k => match nth_error l1 k, nth_error l2 k with Some a, Some b => Some (ec_card a, ec_card b) | _, _ => None end) [7; 8; 14]%nat =
  [Some (PcBalance (Some (Currency "1.000" "nWND")), PcBalance (Some (Currency "100.0" "nDOT")));
   Some (PcBalanceRaw "77", PcBalanceRaw "77");
   Some (PcTip (Some (Currency "5" "pWND")), PcTip (Some (Currency "500" "pDOT")))].
Proof. vm_compute. auto. Qed.

(** A value that stands in another one is displayed there as on its own: its cards are
    consecutive, indented, and all the same but for the type information at their top, which
    may be joined with that of a field (C57). *)
Theorem c74_nested : forall base58 identicon specs name u d w q, inside u d w q ->
  forall inf indent, exists pre post inf' k,
  card base58 identicon specs name d inf indent u =
  pre ++ map (shift (indent + k)) (card base58 identicon specs name q inf' 0 w) ++ post.
Proof.
  intros base58 identicon specs name u d w q H inf indent.
  destruct (inside_has base58 identicon specs name u d w q H inf indent) as (pre & post & inf' & k & E).
  exists pre, post, inf', k. rewrite E. do 2 f_equal.
  rewrite <- (Nat.add_0_r (indent + k)) at 1. apply cards_shift.
Qed.
Print Assumptions c74_nested.

(** The type information handed over is put on the first card; nothing else depends on it. *)
Theorem c74_top : forall base58 identicon specs name d i1 i2 indent u,
  let l1 := card base58 identicon specs name d i1 indent u in
  let l2 := card base58 identicon specs name d i2 indent u in
  map ec_card l1 = map ec_card l2 /\ tl l1 = tl l2.
Proof. intros. apply top_all. Qed.
Print Assumptions c74_top.

(** A call inside (of a batch, a proxy, a multisig ...) is displayed exactly as the call alone
    would be, whatever stands around it; so is an event. *)
Theorem c74_nested_call : forall base58 identicon specs name u d w c, inside u d w (DCall c) ->
  forall inf indent, exists pre post k,
  card base58 identicon specs name d inf indent u =
  pre ++ map (shift (indent + k)) (card_call base58 identicon specs name c 0) ++ post.
Proof.
  intros base58 identicon specs name u d w c H inf indent.
  destruct (c74_nested base58 identicon specs name u d w _ H inf indent) as (pre & post & inf' & k & E).
  exists pre, post, k. exact E.
Qed.
Print Assumptions c74_nested_call.

Theorem c74_nested_event : forall base58 identicon specs name u d w c, inside u d w (DEvent c) ->
  forall inf indent, exists pre post k,
  card base58 identicon specs name d inf indent u =
  pre ++ map (shift (indent + k)) (card_event base58 identicon specs name c 0) ++ post.
Proof.
  intros base58 identicon specs name u d w c H inf indent.
  destruct (c74_nested base58 identicon specs name u d w _ H inf indent) as (pre & post & inf' & k & E).
  exists pre, post, k. exact E.
Qed.
Print Assumptions c74_nested_event.

Example c74_nested_example : inside true batch true (DUInt U128 1000 SuBalance) /\
  inside true batch false (DUInt U64 77 SuBalance) /\ inside true batch false (DCall call_data).
Proof.
  assert (Hc : inside true batch false (DCall call_data)).
  { eapply I_part; [left; reflexivity|]. eapply I_part; [left; reflexivity|]. apply I_self. }
  split; [|split; [|exact Hc] ].
  - eapply I_part; [left; reflexivity|]. eapply I_part; [left; reflexivity|]. eapply I_part; [left; reflexivity|]. apply I_self.
  - eapply I_part; [left; reflexivity|]. eapply I_part; [right; left; reflexivity|]. apply I_self.
Qed.

(** The number of cards is less than three times the number of items; so for decoded data it
    is bounded by the number of bytes, as in C44. *)
Theorem c74_count : forall base58 identicon specs name d inf indent u,
  (List.length (card base58 identicon specs name d inf indent u) < 3 * size d)%nat.
Proof. intros. apply few_all. Qed.
Print Assumptions c74_count.

Theorem c74_count_decoded : forall types data id pos x q,
  acyclic types -> no_empty_elements types -> is_bytes data ->
  decode_at types data id pos = (Ok x, q) ->
  forall base58 identicon specs name indent u,
  (List.length (card_ext base58 identicon specs name x indent u) < 3 * (growth types * (1 + (q - pos))))%nat.
Proof.
  intros types data id pos x q Ha Hn Hd H base58 identicon specs name indent u.
  eapply Nat.lt_le_trans; [apply few_all|]. apply Nat.mul_le_mono_l. apply (decoded_size _ Ha Hn _ _ _ _ _ Hd H).
Qed.
Print Assumptions c74_count_decoded.

(** The bound is reached: an enum variant without fields is one item on two cards. *)
Example c74_count_example : forall base58 identicon specs name indent,
  let d := DVariant (VData "None" "" []) in
  List.length (card base58 identicon specs name d [] indent true) = 2%nat /\ size d = 1%nat.
Proof. intros. vm_compute. auto. Qed.
