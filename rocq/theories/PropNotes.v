(** C57: documentation and type information stand on the cards they belong to, complete and
    unchanged. *)
From Verif Require Import Base Compact Types Indicators Decode Sign Balance Cards Spec SpecCards SpecNotes ProofCards ProofCards2
  ProofShow ProofNotes Sample SampleChain PropCards Api ApiSign.
Local Open Scope string_scope.
Local Open Scope list_scope.

(** Card by card: the notes of the card, and those about the elements of a sequence. *)
Theorem c57_notes : forall base58 identicon specs name x indent db,
  map (fun c => (ec_info c, element_infos (ec_card c))) (card_ext base58 identicon specs name x indent db)
  = map written_sheet (sheets (x_data x) (map on_type (x_info x))).
Proof. intros b i s n x k db. exact (ext_notes b i s n x k db). Qed.
Print Assumptions c57_notes.

(** The same for calls: the notes about the pallet are those of its type, whatever encloses
    the call. *)
Theorem c57_call : forall base58 identicon specs name call indent,
  map (fun c => (ec_info c, element_infos (ec_card c))) (card_call base58 identicon specs name call indent)
  = map written_sheet (sheets (DCall call) []).
Proof. intros b i s n call k. exact (noted_all b i s n (DCall call) [] k true). Qed.
Print Assumptions c57_call.

(** And for transactions. *)
Theorem c57_transaction : forall base58 identicon specs name call xs,
  let notes := map (fun c => (ec_info c, element_infos (ec_card c))) in
  let cards := card_transaction_unmarked base58 identicon specs name call xs in
  notes (fst cards) = map written_sheet (sheets (DCall call) []) /\
  notes (snd cards) = map written_sheet (flat_map (fun x => sheets (x_data x) (map on_type (x_info x))) xs).
Proof.
  intros b i s n call xs notes cards. unfold cards, card_transaction_unmarked. cbn [fst snd]. split; [apply c57_call|].
  rewrite extensions_concat. unfold notes. induction xs as [|x xs IH]; [reflexivity|].
  cbn [flat_map]. rewrite !map_app, IH, c57_notes. reflexivity.
Qed.
Print Assumptions c57_transaction.

Theorem c57_marked : forall base58 identicon specs name ME (t : transaction_parsed ME),
  let notes := map (fun c => (ec_info c, element_infos (ec_card c))) in
  let cards := card_transaction base58 identicon specs name t in
  (forall call, tp_call t = inl call -> exists l, fst cards = inl l /\ notes l = map written_sheet (sheets (DCall call) [])) /\
  notes (snd cards) = map written_sheet (flat_map (fun x => sheets (x_data x) (map on_type (x_info x))) (tp_extensions t)).
Proof.
  intros b i s n ME t notes cards. split.
  - intros call H. unfold cards, card_transaction. rewrite H. eexists. split; [reflexivity|]. apply c57_call.
  - unfold cards. destruct (c57_transaction b i s n (PSData (Info "" []) "" "" "" []) (tp_extensions t)) as [_ H]. exact H.
Qed.
Print Assumptions c57_marked.

(** How notes are written. *)
Example c57_written :
  written (Note "An account." ["pallet"; "Account"]) = InfoFlat (Some "An account.") (Some "pallet >> Account") /\
  written (Note "" ["a"; "b"; "c"]) = InfoFlat None (Some "a >> b >> c") /\
  written (Note "d" []) = InfoFlat (Some "d") None.
Proof. repeat split. Qed.

(** The notes on the 20 cards of the sample value. *)
Example c57_case : exists x, decode_all sample_wf sample_bytes 10 = Ok x /\
  sheets (x_data x) (map on_type (x_info x)) =
    [ ([], []); ([Note "" ["Option"]], []); ([], []);
      ([Note "An account." ["pallet"; "Account"]], []); ([Note "the nonce" []], []);
      ([], []); ([], []); ([], []); ([], []); ([], []);
      ([Note "" ["tree"; "Node"]], []); ([], []); ([], []); ([], []);
      ([], [Note "" ["tree"; "Node"]]); ([], []); ([], []); ([], []); ([], []);
      ([], [Note "" ["tree"; "Node"]]) ].
Proof. eexists. split; [vm_compute; reflexivity|]. vm_compute. reflexivity. Qed.
