(** C47-C49: what the displayed lines say about the bytes.  Only statements and examples;
    proofs in ProofSee.v and ProofSee2.v, specification in SpecSee.v.

    [show bits_string] is `ExtendedCard::show`: the line printed for a card.  [base58] is the
    address format, [bits_string] the printing of bit vectors. *)
From Verif Require Import Base Compact Types Indicators Decode Sign Balance Cards Spec SpecWf SpecBalance SpecCards SpecSee
  ProofBase ProofCards ProofSee ProofSee2 Sample Api ApiSign SampleChain.
From Verif Require TestWestend TestStatemint.
Local Open Scope string_scope.
Local Open Scope list_scope.

(** C47: two byte strings decoded completely by the same type with the same displayed lines
    are the same byte string, if the first has nothing that a display cannot tell. *)
Theorem c47_blob : forall base58 identicon specs name bits_string types data1 data2 id x1 x2 indent db,
  base58_faithful base58 -> bits_faithful bits_string -> (decimals specs < 256)%N -> told_apart types ->
  is_bytes data1 -> is_bytes data2 ->
  decode_all types data1 id = Ok x1 -> decode_all types data2 id = Ok x2 -> nothing_hidden (x_data x1) ->
  map (show bits_string) (card_ext base58 identicon specs name x1 indent db) =
  map (show bits_string) (card_ext base58 identicon specs name x2 indent db) ->
  data1 = data2.
Proof. intros b i s n bs types data1 data2 id x1 x2 k db Hb Hs Hd Ha. exact (blob_see b i s n bs types Hb Hs Hd Ha data1 data2 id x1 x2 k db). Qed.
Print Assumptions c47_blob.

(** The same for two places in two byte strings: the used bytes are the same.  Neither are
    the lines of one value the beginning of the lines of another. *)
Theorem c47_at : forall base58 identicon specs name bits_string types data1 data2 id p1 p2 x1 x2 q1 q2 indent db more1 more2,
  base58_faithful base58 -> bits_faithful bits_string -> (decimals specs < 256)%N -> told_apart types ->
  is_bytes data1 -> is_bytes data2 ->
  decode_at types data1 id p1 = (Ok x1, q1) -> decode_at types data2 id p2 = (Ok x2, q2) -> nothing_hidden (x_data x1) ->
  map (show bits_string) (card_ext base58 identicon specs name x1 indent db) ++ more1 =
  map (show bits_string) (card_ext base58 identicon specs name x2 indent db) ++ more2 ->
  slice data1 p1 (q1 - p1) = slice data2 p2 (q2 - p2) /\ (q1 - p1 = q2 - p2)%nat /\ more1 = more2.
Proof.
  intros b i s n bs types data1 data2 id p1 p2 x1 x2 q1 q2 k db m1 m2 Hb Hs Hd Ha.
  exact (slice_see b i s n bs types Hb Hs Hd Ha data1 data2 id p1 p2 x1 x2 q1 q2 k db m1 m2).
Qed.
Print Assumptions c47_at.

(** Address format and bit strings that tell things apart. *)
Definition hex_address (k : fixed_kind) (b : bytes) (prefix : N) : string := hex_encode b.
Fixpoint plain_bits (w : uwidth) (o : bit_order) (l : list bool) : string :=
  match l with [] => "" | b :: r => String (if b then "1" else "0") (plain_bits w o r) end.

Lemma hex_address_faithful : base58_faithful hex_address.
Proof. intros k a b p Ha Hb _ _ H. exact (hex_inj a b Ha Hb H). Qed.

Lemma plain_bits_faithful : bits_faithful plain_bits.
Proof.
  intros w o. induction a as [|x a IH]; intros [|y b] H; try discriminate H; [reflexivity|].
  cbn [plain_bits] in H. injection H as Hx H. rewrite (IH _ H). destruct x, y; discriminate Hx || reflexivity.
Qed.

(** A decidable form of [told_apart]. *)
Definition kind_number (k : fixed_kind) : nat :=
  match k with
  | KH160 => 0 | KH512 => 1 | KAccountId32 => 2 | KPubEd25519 => 3 | KPubSr25519 => 4 | KPubEcdsa => 5
  | KSigEd25519 => 6 | KSigSr25519 => 7 | KSigEcdsa => 8
  end.

Definition apart_check (types : list ty) : bool :=
  forallb (fun t => match t_def t with
                    | TVariant l => forallb (fun a => forallb (fun b =>
                        if (String.eqb (v_name a) (v_name b)
                            || match variant_sig types t a, variant_sig types t b with
                               | Some j, Some k => Nat.eqb (kind_number j) (kind_number k)
                               | _, _ => false
                               end)%bool
                        then N.eqb (v_index a) (v_index b) else true) l) l
                    | _ => true
                    end) types.

Lemma apart_check_ok types : apart_check types = true -> told_apart types.
Proof.
  intros H id t l a b Hl Ht Ia Ib Hab. apply lookup_indexed in Hl. unfold indexed in Hl. apply in_combine_r in Hl.
  unfold apart_check in H. rewrite forallb_forall in H. specialize (H t Hl). rewrite Ht in H.
  rewrite forallb_forall in H. specialize (H a Ia). rewrite forallb_forall in H. specialize (H b Ib). cbv beta in H.
  destruct (String.eqb (v_name a) (v_name b) || _)%bool eqn:Eq in H; [apply N.eqb_eq, H|].
  exfalso. apply Bool.orb_false_iff in Eq. destruct Eq as [E1 E2]. destruct Hab as [E|(k & Ha & Hb)].
  - apply String.eqb_eq in E. congruence.
  - rewrite Ha, Hb, Nat.eqb_refl in E2. discriminate E2.
Qed.

(** Real registries: those of the Westend and Statemint metadata in the repository. *)
Theorem westend_told_apart : told_apart TestWestend.md_types.
Proof. apply apart_check_ok. vm_compute. reflexivity. Qed.
Print Assumptions westend_told_apart.

Theorem statemint_told_apart : told_apart TestStatemint.md_types.
Proof. apply apart_check_ok. vm_compute. reflexivity. Qed.
Print Assumptions statemint_told_apart.

Definition unit_specs := ShortSpecs 42 12 "WND".
Definition line_list (x : ext pdata) : list string :=
  map (show plain_bits) (card_ext hex_address (fun b => b) unit_specs "westend" x 0 true).

Example c47_example : told_apart sample_wf /\ exists x, decode_all sample_wf sample_bytes 10 = Ok x /\
  nothing_hidden (x_data x) /\ List.length (line_list x) = 20%nat.
Proof.
  split; [apply apart_check_ok; vm_compute; reflexivity|]. eexists. split; [vm_compute; reflexivity|].
  vm_compute. repeat split.
Qed.

(** C48: the same for the whole of a signable transaction: the lines of the call followed
    by those of the extensions. *)
Theorem c48_transaction : forall base58 identicon specs name bits_string ME (c : ApiSign.chain ME) g1 g2 data1 data2
    call1 call2 xs1 xs2,
  base58_faithful base58 -> bits_faithful bits_string -> (decimals specs < 256)%N -> told_apart (ch_types c) ->
  is_bytes data1 -> is_bytes data2 ->
  transaction c g1 data1 = Ok (TransactionParsed (inl call1) xs1) ->
  transaction c g2 data2 = Ok (TransactionParsed (inl call2) xs2) ->
  nothing_hidden (DCall call1) -> Forall (fun x => nothing_hidden (x_data x)) xs1 ->
  map (show bits_string) (card_call base58 identicon specs name call1 0 ++ card_extensions base58 identicon specs name xs1) =
  map (show bits_string) (card_call base58 identicon specs name call2 0 ++ card_extensions base58 identicon specs name xs2) ->
  data1 = data2.
Proof.
  intros b i s n bs ME c g1 g2 data1 data2 call1 call2 xs1 xs2 Hb Hs Hd Ha B1 B2 T1 T2 N1 Ns E. rewrite !map_app in E.
  exact (transaction_see c b i s n bs Hb Hs Hd Ha g1 g2 data1 data2 call1 call2 xs1 xs2 B1 B2 T1 T2 N1 Ns E).
Qed.
Print Assumptions c48_transaction.

Theorem c48_unmarked : forall base58 identicon specs name bits_string ME (c : ApiSign.chain ME) g1 g2 data1 data2
    call1 call2 xs1 xs2,
  base58_faithful base58 -> bits_faithful bits_string -> (decimals specs < 256)%N -> told_apart (ch_types c) ->
  is_bytes data1 -> is_bytes data2 ->
  transaction_unmarked c g1 data1 = Ok (call1, xs1) -> transaction_unmarked c g2 data2 = Ok (call2, xs2) ->
  nothing_hidden (DCall call1) -> Forall (fun x => nothing_hidden (x_data x)) xs1 ->
  map (show bits_string) (card_call base58 identicon specs name call1 0 ++ card_extensions base58 identicon specs name xs1) =
  map (show bits_string) (card_call base58 identicon specs name call2 0 ++ card_extensions base58 identicon specs name xs2) ->
  data1 = data2.
Proof.
  intros b i s n bs ME c g1 g2 data1 data2 call1 call2 xs1 xs2 Hb Hs Hd Ha B1 B2 T1 T2 N1 Ns E. rewrite !map_app in E.
  exact (unmarked_see c b i s n bs Hb Hs Hd Ha g1 g2 data1 data2 call1 call2 xs1 xs2 B1 B2 T1 T2 N1 Ns E).
Qed.
Print Assumptions c48_unmarked.

Example c48_example : told_apart (ch_types sample_chain) /\ exists xs,
  transaction sample_chain (Some genesis) (prefixed the_call ++ mortal_extensions) = Ok (TransactionParsed (inl call_data) xs) /\
  transaction_unmarked sample_chain None (the_call ++ mortal_extensions) = Ok (call_data, xs) /\
  nothing_hidden (DCall call_data) /\ Forall (fun x => nothing_hidden (x_data x)) xs.
Proof.
  split; [apply apart_check_ok; vm_compute; reflexivity|]. eexists. split; [vm_compute; reflexivity|].
  split; [vm_compute; reflexivity|]. split; [vm_compute; repeat split|]. repeat constructor.
Qed.

(** C49: what C47 excludes is really not told by the display. *)
Definition hidden_types : list ty :=
  [ (* 0 *) Ty [] [] (TPrimitive PrStr) [];
    (* 1 *) Ty [] [] (TTuple [0; 0]%N) [];
    (* 2 *) Ty [] [] (TPrimitive (PrU U32)) [];
    (* 3 *) Ty ["sp_arithmetic"; "per_things"; "Perbill"] [] (TComposite [Field None 2 (Some "u32") []]) [];
    (* 4 *) Ty [] [] (TCompact 3) [];
    (* 5 *) Ty [] [] (TPrimitive (PrU U8)) [];
    (* 6 *) Ty ["bitvec"; "order"; "Lsb0"] [] (TComposite []) [];
    (* 7 *) Ty [] [] (TBitSequence 5 6) [];
    (* 8 *) Ty ["E"] [] (TVariant [Variant "A" [] 0 []; Variant "A" [] 1 []]) [] ].

Definition lines_of (data : bytes) (id : N) : option (list string) :=
  match decode_all hidden_types data id with Ok x => Some (line_list x) | _ => None end.

(** Two byte strings with the same lines. *)
Definition look_alike (id : N) (data1 data2 : bytes) : Prop :=
  data1 <> data2 /\ lines_of data1 id = lines_of data2 id /\ lines_of data1 id <> None.

(** Compact per-things above 100%; the unused bits of a bit vector; variants of one name. *)
Theorem c49_necessary :
  look_alike 4 (compact_enc 1000000001) (compact_enc 1000000000) /\
  look_alike 7 [12; 5]%N [12; 13]%N /\
  look_alike 8 [0]%N [1]%N /\ ~ told_apart hidden_types.
Proof.
  repeat split; try (vm_compute; discriminate); try (vm_compute; reflexivity).
  intros H. specialize (H 8%N _ _ (Variant "A" [] 0 []) (Variant "A" [] 1 []) eq_refl eq_refl
    (or_introl eq_refl) (or_intror (or_introl eq_refl)) (or_introl eq_refl)). discriminate H.
Qed.
Print Assumptions c49_necessary.

(** Joined with newlines ([show_all], `ExtendedData::show`), the lines of different values,
    which differ by C47, can make the same text: texts are shown as they are. *)
Definition text_bytes (s : string) : bytes :=
  compact_enc (N.of_nat (String.length s)) ++ map N_of_ascii (list_ascii_of_string s).
Definition pair_of (s t : string) : bytes := text_bytes s ++ text_bytes t.

Theorem c49_joined : exists x1 x2,
  let data1 := pair_of ("a" ++ newline ++ "  Text: b") "c" in
  let data2 := pair_of "a" ("b" ++ newline ++ "  Text: c") in
  data1 <> data2 /\ decode_all hidden_types data1 1 = Ok x1 /\ decode_all hidden_types data2 1 = Ok x2 /\
  show_all plain_bits (card_ext hex_address (fun b => b) unit_specs "westend" x1 0 true) =
  show_all plain_bits (card_ext hex_address (fun b => b) unit_specs "westend" x2 0 true).
Proof.
  eexists. eexists. cbv zeta. split; [vm_compute; discriminate|]. split; [vm_compute; reflexivity|].
  split; [vm_compute; reflexivity|]. vm_compute. reflexivity.
Qed.
Print Assumptions c49_joined.

(** If no displayed line contains a newline, the joined text determines the bytes. *)
Theorem c49_one_line_each : forall base58 identicon specs name bits_string types data1 data2 id x1 x2 indent db,
  base58_faithful base58 -> bits_faithful bits_string -> (decimals specs < 256)%N -> told_apart types ->
  is_bytes data1 -> is_bytes data2 ->
  decode_all types data1 id = Ok x1 -> decode_all types data2 id = Ok x2 -> nothing_hidden (x_data x1) ->
  let cards x := card_ext base58 identicon specs name x indent db in
  Forall (fun c => one_line (show bits_string c)) (cards x1) -> Forall (fun c => one_line (show bits_string c)) (cards x2) ->
  show_all bits_string (cards x1) = show_all bits_string (cards x2) ->
  data1 = data2.
Proof.
  intros b i s n bs types data1 data2 id x1 x2 k db Hb Hs Hd Ha B1 B2 D1 D2 Hn cards O1 O2 E.
  apply (blob_see b i s n bs types Hb Hs Hd Ha data1 data2 id x1 x2 k db B1 B2 D1 D2 Hn).
  exact (joined_lines bs _ _ O1 O2 E).
Qed.
Print Assumptions c49_one_line_each.

Definition one_line_check (s : string) : bool :=
  negb (existsb (Ascii.eqb (ascii_of_nat 10)) (list_ascii_of_string s)).
Lemma one_line_check_ok s : one_line_check s = true -> one_line s.
Proof.
  unfold one_line_check. intros H I. apply Bool.negb_true_iff in H.
  assert (F : existsb (Ascii.eqb (ascii_of_nat 10)) (list_ascii_of_string s) = true).
  { apply existsb_exists. exists (ascii_of_nat 10). split; [exact I|apply Ascii.eqb_refl]. }
  congruence.
Qed.

Definition sample_cards : list ecard :=
  match decode_all sample_wf sample_bytes 10%N with
  | Ok x => card_ext hex_address (fun b => b) unit_specs "westend" x 0 true
  | _ => []
  end.

Example c49_one_line_example : List.length sample_cards = 20%nat /\
  Forall (fun c => one_line (show plain_bits c)) sample_cards.
Proof.
  split; [vm_compute; reflexivity|].
  assert (G : forallb (fun c => one_line_check (show plain_bits c)) sample_cards = true) by (vm_compute; reflexivity).
  rewrite forallb_forall in G. apply Forall_forall. intros c Hc. apply one_line_check_ok, G, Hc.
Qed.
