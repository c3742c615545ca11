(** C37-C40, C45, C46: cards.  Only statements and examples; proofs in ProofCards.v,
    ProofCards2.v and ProofShow.v, specification in SpecCards.v.

    Throughout, [base58] and [identicon] are the address format and the identicon
    renderer, arbitrary functions; [specs] and [name] are the chain specs and name. *)
From Verif Require Import Base Compact Types Indicators Decode Sign Balance Cards Spec SpecBalance SpecCards
  ProofCards ProofCards2 ProofShow Api ApiSign SampleChain.
Local Open Scope string_scope.
Local Open Scope list_scope.

(** C37: one block, starting at the requested indent. *)
Theorem c37_outline : forall base58 identicon specs name d inf indent db,
  block indent (card base58 identicon specs name d inf indent db).
Proof. exact cards_block. Qed.
Print Assumptions c37_outline.

(** The indent shifts the block and changes nothing else. *)
Theorem c37_shift : forall base58 identicon specs name d inf indent db k,
  card base58 identicon specs name d inf (k + indent) db =
  map (shift k) (card base58 identicon specs name d inf indent db).
Proof. exact cards_shift. Qed.
Print Assumptions c37_shift.

(** The same for calls and events, which are always shown. *)
Theorem c37_calls : forall base58 identicon specs name c indent,
  block indent (card_call base58 identicon specs name c indent) /\
  block indent (card_event base58 identicon specs name c indent) /\
  card_call base58 identicon specs name c indent <> [] /\
  card_event base58 identicon specs name c indent <> [].
Proof.
  intros b i s n c k. split; [|split; [|split; discriminate] ].
  - exact (cards_block b i s n (DCall c) [] k true).
  - exact (cards_block b i s n (DEvent c) [] k true).
Qed.
Print Assumptions c37_calls.

(** A batch: a call of another pallet that holds a tuple of a Balances call, a labelled
    balance, an empty struct in a struct, a byte string and numbers. *)
Definition batch : pdata :=
  DCall (PSData (Info "" ["pallet_utility"; "Call"]) "" "Utility" "batch"
    [FData (Some "calls") None "doc"
       (Ext (DTuple [Ext (DCall call_data) []; Ext (DUInt U64 77 SuBalance) [];
                     Ext (DComposite [FData None None "" (Ext (DTuple []) [])]) [];
                     Ext (DSequence [] (SeqU U8 [72; 105]%N)) [];
                     Ext (DSequence [] (SeqU U16 [1; 515]%N)) [] ]) []);
     FData (Some "tip") None "" (Ext (DUInt U32 5 SuTip) [])]).
Definition no_base58 (k : fixed_kind) (b : bytes) (p : N) : string := "".
Definition unit_specs := ShortSpecs 42 12 "WND".
Definition batch_cards := card no_base58 (fun b => b) unit_specs "westend" batch [] 3 true.

Example c37_example : map ec_indent batch_cards = [3; 4; 5; 6; 7; 8; 9; 10; 7; 7; 7; 8; 8; 5; 6]%nat.
Proof. vm_compute. reflexivity. Qed.

(** C38, C39: the cards other than announcements and field headers show, in order and one
    for one, all there is in the data: values, elements of collected numbers, byte strings,
    and the names of variants, pallets, calls and events; balances in units of the chain
    exactly where the innermost call or event allows it ([contents], [shows]). *)
Theorem c38_c39_contents : forall base58 identicon specs name d inf indent db,
  Forall2 (fun x c => shows base58 identicon specs name (fst x) (snd x) c) (contents db d)
    (filter (fun c => negb (structural c)) (map ec_card (card base58 identicon specs name d inf indent db))).
Proof. exact cards_contents. Qed.
Print Assumptions c38_c39_contents.

(** C38 for the extensions of a transaction and for its call. *)
Theorem c38_transactions : forall base58 identicon specs name c exts,
  Forall2 (fun x c => shows base58 identicon specs name (fst x) (snd x) c)
    (flat_map (fun x => contents true (x_data x)) exts)
    (filter (fun c => negb (structural c)) (map ec_card (card_extensions base58 identicon specs name exts))) /\
  Forall2 (fun x c => shows base58 identicon specs name (fst x) (snd x) c) (contents true (DCall c))
    (filter (fun c => negb (structural c)) (map ec_card (card_call base58 identicon specs name c 0))).
Proof.
  intros b i s n c exts. split; [|exact (cards_contents b i s n (DCall c) [] 0 true)].
  rewrite extensions_concat. induction exts as [|x r IH]; [constructor|]. cbn [flat_map].
  rewrite map_app, filter_app. apply Forall2_app; [apply cards_contents|exact IH].
Qed.
Print Assumptions c38_transactions.

(** Where balances are in units: the flag of a nested item is that of the innermost call. *)
Theorem c38_innermost : forall db c, contents db (DCall c) = contents (negb db) (DCall c) /\
  contents db (DEvent c) = contents (negb db) (DEvent c).
Proof. intros [] c; split; reflexivity. Qed.
Print Assumptions c38_innermost.

Example c38_example : contents true batch =
  [(false, IPallet "Utility"); (false, ICall "batch");
   (true, IPallet "Balances"); (true, ICall "transfer"); (true, IValue (DUInt U128 1000 SuBalance));
   (false, IValue (DUInt U64 77 SuBalance)); (false, IByteString [72; 105]%N);
   (false, IInteger U16 1); (false, IInteger U16 515); (false, IValue (DUInt U32 5 SuTip))].
Proof. vm_compute. reflexivity. Qed.

Example c39_example : filter (fun c => negb (structural c)) (map ec_card batch_cards) =
  [PcPalletName "Utility"; PcCallName "batch"; PcPalletName "Balances"; PcCallName "transfer";
   PcBalance (Some (Currency "1.000" "nWND")); PcBalanceRaw "77"; PcSequenceU8 "4869" (Some "Hi") [];
   PcUInt U16 1; PcUInt U16 515; PcTip (Some (Currency "5" "pWND"))].
Proof. vm_compute. reflexivity. Qed.

(** C39: different values have different cards, if the address format tells addresses apart. *)
Theorem c39_faithful : forall base58 identicon specs name,
  base58_faithful base58 -> (decimals specs < 256)%N ->
  forall u1 u2 i j c, shows base58 identicon specs name u1 i c -> shows base58 identicon specs name u2 j c ->
  in_range i -> in_range j -> alike i j.
Proof. exact shows_alike. Qed.
Print Assumptions c39_faithful.

Example c39_faithful_example : exists c,
  shows (fun _ b _ => string_of_bytes b) (fun b => b) unit_specs "westend" true (IValue (DUInt U64 1500 SuBalance)) c /\
  in_range (IValue (DUInt U64 1500 SuBalance)).
Proof. eexists. split; [constructor; apply units_ok|reflexivity]. Qed.

(** C39: announced numbers.  Below every card there is what it announces; exactly, if there
    are no data without content. *)
Theorem c39_tally : forall base58 identicon specs name full d inf indent db,
  (full = true -> everywhere (fun x => hollow x = false) d) ->
  forall pre c post, card base58 identicon specs name d inf indent db = pre ++ c :: post ->
  tallies full (ec_card c) (below (ec_indent c) post).
Proof. exact cards_tally. Qed.
Print Assumptions c39_tally.

(** Data without content have no cards, all other have. *)
Theorem c39_hollow : forall base58 identicon specs name d inf indent db,
  hollow d = true <-> card base58 identicon specs name d inf indent db = [].
Proof.
  intros b i s n d inf k db. rewrite laid_all. split.
  - revert inf. induction d as [d L|fs H|v H|c H|c H|l H|ei q|ei l H] using pdata_ind'; intros inf E; try discriminate E.
    + destruct d; discriminate E || contradiction L.
    + destruct fs as [|f [|g r]]; [reflexivity| |discriminate E]. cbn [hollow trees] in *.
      destruct (fd_name f); [discriminate E|]. inversion H; subst. auto.
    + destruct l; [reflexivity|discriminate E].
  - intros E. destruct (hollow d) eqn:Eh; [reflexivity|]. pose proof (not_hollow b i s n d Eh inf db) as L.
    destruct (trees b i s n d inf db) as [|[x y z] r]; [discriminate L|]. cbn [lays] in E. rewrite lay_node in E. discriminate E.
Qed.
Print Assumptions c39_hollow.

Definition solid_data : pdata :=
  DComposite [FData (Some "a") None "" (Ext (DVariant (VData "V" "" [FData None None "" (Ext (DBool true) [])])) []);
              FData None None "" (Ext (DSequenceRaw [] [DChar 65; DChar 66]) [])].

(** Here the tuple announces 5 elements, of which one is empty, and 4 are shown. *)
Example c39_tally_example :
  nth_error (map ec_card batch_cards) 3 = Some (PcTupleAnnounced 5) /\
  map structural (below 6 (skipn 4 batch_cards)) = [false; false; false; true] /\
  everywhere (fun x => hollow x = false) solid_data.
Proof. vm_compute. repeat split. Qed.

(** C40: type information attached to cards of decoded values and transactions says
    something. *)
Theorem c40_values : forall base58 identicon specs name h types data id pos x q indent db, is_bytes data ->
  decode_hinted h types data id pos = (Ok x, q) ->
  Forall informative (card_ext base58 identicon specs name x indent db).
Proof. intros b i s n h types data id pos x q k db. apply hinted_informative. Qed.
Print Assumptions c40_values.

Theorem c40_transaction : forall base58 identicon specs name ME (c : chain ME) g data t, is_bytes data ->
  transaction c g data = Ok t ->
  Forall informative (snd (card_transaction base58 identicon specs name t)) /\
  forall cards, fst (card_transaction base58 identicon specs name t) = inl cards -> Forall informative cards.
Proof.
  intros b i s n ME c g data t Hb H. destruct (transaction_informative b i s n c g data t Hb H) as [A B].
  split; [exact A|]. intros cards E. cbn [card_transaction fst] in E. destruct (tp_call t) as [call|] eqn:Ec; [|discriminate E].
  injection E as <-. apply B. reflexivity.
Qed.
Print Assumptions c40_transaction.

Theorem c40_unmarked : forall base58 identicon specs name ME (c : chain ME) g data call xs, is_bytes data ->
  transaction_unmarked c g data = Ok (call, xs) ->
  Forall informative (fst (card_transaction_unmarked base58 identicon specs name call xs)) /\
  Forall informative (snd (card_transaction_unmarked base58 identicon specs name call xs)).
Proof. intros b i s n ME c g data call xs. exact (unmarked_informative b i s n c g data call xs). Qed.
Print Assumptions c40_unmarked.

(** Some cards have type information. *)
Example c40_example : exists t, transaction sample_chain None (prefixed the_call ++ mortal_extensions) = Ok t /\
  map (fun c => List.length (ec_info c)) (snd (card_transaction no_base58 (fun b => b) unit_specs "westend" t))
    = [2; 0; 1; 1]%nat.
Proof. eexists. split; vm_compute; reflexivity. Qed.

(** C45: printed cards. *)
Theorem c45_text : forall bits_string c, exists text, prints bits_string c text /\
  forall indent inf, show bits_string (ECard c indent inf) = (blanks (2 * indent) ++ text)%string.
Proof. exact show_text. Qed.
Print Assumptions c45_text.

Theorem c45_docs : forall bits_string c,
  show_with_docs bits_string c =
  (show bits_string c ++ element_note (element_infos (ec_card c)) ++ info_lines (ec_indent c) (ec_info c))%string.
Proof. exact show_docs. Qed.
Print Assumptions c45_docs.

(** Several cards: one after another, a new line between them, without and with notes. *)
Theorem c45_all : forall bits_string,
  show_all bits_string [] = ""%string /\ show_all_with_docs bits_string [] = ""%string /\
  (forall c, show_all bits_string [c] = show bits_string c) /\
  (forall c, show_all_with_docs bits_string [c] =
     (show bits_string c ++ element_note (element_infos (ec_card c)) ++ info_lines (ec_indent c) (ec_info c))%string) /\
  (forall l1 l2, l1 <> [] -> l2 <> [] ->
     show_all bits_string (l1 ++ l2) = (show_all bits_string l1 ++ newline ++ show_all bits_string l2)%string /\
     show_all_with_docs bits_string (l1 ++ l2) = (show_all_with_docs bits_string l1 ++ newline ++ show_all_with_docs bits_string l2)%string).
Proof.
  intros bits_string. split; [reflexivity|]. split; [reflexivity|]. split; [intros c; reflexivity|].
  split; [intros c; unfold show_all_with_docs; cbn [map join]; exact (show_docs bits_string c)|].
  intros l1 l2 H1 H2.
  assert (Hj : forall (f : ecard -> string), join newline (map f (l1 ++ l2)) = (join newline (map f l1) ++ newline ++ join newline (map f l2))%string).
  { intros f. rewrite map_app. destruct l2 as [|y l2]; [contradiction|]. clear H2. destruct l1 as [|x l1]; [contradiction|]. clear H1. revert x.
    induction l1 as [|x2 l1 IH]; intros x; [reflexivity|]. specialize (IH x2). cbn [map app] in *.
    change (join newline (f x :: f x2 :: map f l1 ++ f y :: map f l2)) with (f x ++ newline ++ join newline (f x2 :: map f l1 ++ f y :: map f l2))%string.
    change (join newline (f x :: f x2 :: map f l1)) with (f x ++ newline ++ join newline (f x2 :: map f l1))%string.
    rewrite IH. rewrite !str_assoc. reflexivity. }
  split; apply Hj.
Qed.
Print Assumptions c45_all.

Example c45_example :
  show_with_docs (fun _ _ _ => "") (ECard (PcSequenceU8 "4869" (Some "Hi") [InfoFlat None (Some "a >> b")]) 2 [InfoFlat (Some "d") None])
  = ("    Text: Hi, element info: [(docs: None, path: a >> b)]" ++ newline ++ "    (docs: d, path: None)")%string.
Proof. vm_compute. reflexivity. Qed.

(** C46: transactions are carded piece by piece. *)
Theorem c46_transaction : forall base58 identicon specs name ME (t : transaction_parsed ME),
  snd (card_transaction base58 identicon specs name t) =
    flat_map (fun x => card base58 identicon specs name (x_data x) (map flatten (x_info x)) 0 true) (tp_extensions t) /\
  (forall call, tp_call t = inl call -> fst (card_transaction base58 identicon specs name t) =
     inl (card base58 identicon specs name (DCall call) [] 0 true)) /\
  (forall e, tp_call t = inr e -> fst (card_transaction base58 identicon specs name t) = inr e).
Proof.
  intros b i s n ME t. split; [apply extensions_concat|]. unfold card_transaction. split.
  - intros call ->. reflexivity.
  - intros e ->. reflexivity.
Qed.
Print Assumptions c46_transaction.

Theorem c46_unmarked : forall base58 identicon specs name call xs,
  card_transaction_unmarked base58 identicon specs name call xs =
    (card base58 identicon specs name (DCall call) [] 0 true,
     flat_map (fun x => card base58 identicon specs name (x_data x) (map flatten (x_info x)) 0 true) xs).
Proof. intros b i s n call xs. unfold card_transaction_unmarked. rewrite extensions_concat. reflexivity. Qed.
Print Assumptions c46_unmarked.

Example c46_example : exists t, transaction sample_chain None (prefixed the_call ++ mortal_extensions) = Ok t /\
  List.length (snd (card_transaction no_base58 (fun b => b) unit_specs "westend" t)) = 4%nat /\
  exists t', transaction sample_chain None (prefixed [7; 7; 7; 7]%N ++ mortal_extensions) = Ok t' /\
  fst (card_transaction no_base58 (fun b => b) unit_specs "westend" t') = inr (Parsing (UnexpectedEnumVariant 1)).
Proof. eexists. split; [vm_compute; reflexivity|]. split; [vm_compute; reflexivity|]. eexists. split; vm_compute; reflexivity. Qed.
