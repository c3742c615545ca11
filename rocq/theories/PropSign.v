(** C21-C26: signable transactions.  Only statements; proofs in ProofSign.v and
    ProofSign2.v, specification in SpecSign.v. *)
From Verif Require Import Base Compact Types Indicators Decode Sign Spec SpecSign Api ApiSign SpecSource ProofBase ProofSafe2 ProofSign ProofSign2 ProofMark SampleChain.
Local Open Scope string_scope.
Local Open Scope list_scope.

(** C21: marking splits the data at the announced length, or there is no such split. *)
Theorem c21_mark : forall ME data, is_bytes data ->
  (exists n call rest, fits U32 n = true /\ data = compact_enc n ++ call ++ rest /\ N.of_nat (List.length call) = n /\
     @mark_data ME data = Ok (Marked (List.length (compact_enc n)) (List.length (compact_enc n ++ call)))) \/
  ((forall n call rest, fits U32 n = true -> data = compact_enc n ++ call ++ rest -> N.of_nat (List.length call) <> n) /\
   @mark_data ME data = Err CutSignable).
Proof. intros ME. exact mark_spec. Qed.
Print Assumptions c21_mark.

(** In the other direction, for a given split. *)
Theorem c21_mark_of : forall ME call rest, fits U32 (N.of_nat (List.length call)) = true -> is_bytes (call ++ rest) ->
  let head := compact_enc (N.of_nat (List.length call)) in
  @mark_data ME (head ++ call ++ rest) = Ok (Marked (List.length head) (List.length (head ++ call))).
Proof. intros ME. exact mark_of. Qed.
Print Assumptions c21_mark_of.

Example c21_example :
  @mark_data string (prefixed the_call ++ mortal_extensions) = Ok (Marked 1 5) /\
  @mark_data string [16; 4; 3; 161]%N = Err CutSignable /\
  @mark_data string [2; 0; 1; 0]%N = Err CutSignable /\
  @mark_data string [16; 4; 3; 161; 15]%N = Ok (Marked 1 5).
Proof. vm_compute. auto. Qed.

(** Between marking and parsing: the data without the extensions is the data up to the
    start of the extensions, with the same positions, and marking it gives the same marks. *)
Theorem c21_no_extensions : forall ME data mk, is_bytes data -> @mark_data ME data = Ok mk ->
  (0 < call_start mk <= extensions_start mk)%nat /\ (extensions_start mk <= List.length data)%nat /\
  @mark_data ME (firstn (extensions_start mk) data) = Ok mk /\
  exists part, data_no_extensions (@slice_buffer unit data) mk = Some part /\
    total_len part = extensions_start mk /\
    forall p n e, rd part p n e = rd (slice_buffer (firstn (extensions_start mk) data)) p n e.
Proof. intros ME. exact no_extensions_slice. Qed.
Print Assumptions c21_no_extensions.

(** In any well-behaved source, also an external one: the extensions can always be cut off,
    and what is left answers only for the bytes in front of them, as the source does. *)
Theorem c21_no_extensions_anywhere : forall E ME (b : buffer E) p e mk p' e', good_buffer b ->
  @mark E ME b p e = (Ok mk, p', e') ->
  p' = p /\ (0 < call_start mk <= extensions_start mk)%nat /\ (extensions_start mk <= total_len b)%nat /\
  exists part, data_no_extensions b mk = Some part /\ total_len part = extensions_start mk /\
    forall q n s,
      ((q + N.to_nat n <= extensions_start mk)%nat -> rd part q n s = rd b q n s) /\
      ((extensions_start mk < q + N.to_nat n)%nat -> exists x, rd part q n s = (inr x, s)).
Proof. intros E ME. exact no_extensions_anywhere. Qed.
Print Assumptions c21_no_extensions_anywhere.

Example c21_no_extensions_example :
  let data := prefixed the_call ++ mortal_extensions in
  option_map (fun part => (total_len part, fst (rd part 1 4 tt), fst (rd part 5 1 tt)))
    (data_no_extensions (@slice_buffer unit data) (Marked 1 5)) =
    Some (5, inl the_call, inr (DataTooShort 5 1))%nat /\
  (5 < List.length data)%nat /\
  good_buffer (@slice_buffer unit data).
Proof. split; [vm_compute; reflexivity|]. split; [vm_compute; repeat constructor|exact (good_slice _)]. Qed.

(** C22: what is decoded of the call does not depend on the extensions. *)
Theorem c22_call_isolated : forall ME (c : chain ME) g call exts1 exts2 t1 t2,
  fits U32 (N.of_nat (List.length call)) = true -> is_bytes (call ++ exts1) -> is_bytes (call ++ exts2) ->
  let head := compact_enc (N.of_nat (List.length call)) in
  transaction c g (head ++ call ++ exts1) = Ok t1 -> transaction c g (head ++ call ++ exts2) = Ok t2 ->
  tp_call t1 = tp_call t2.
Proof. intros ME c. exact (call_isolated_tx c). Qed.
Print Assumptions c22_call_isolated.

(** The extensions, and the errors in them, do not depend on the call. *)
Theorem c22_extensions_isolated : forall ME (c : chain ME) g call1 call2 exts,
  fits U32 (N.of_nat (List.length call1)) = true ->
  List.length call1 = List.length call2 -> is_bytes (call1 ++ exts) -> is_bytes (call2 ++ exts) ->
  match transaction c g (compact_enc (N.of_nat (List.length call1)) ++ call1 ++ exts),
        transaction c g (compact_enc (N.of_nat (List.length call2)) ++ call2 ++ exts) with
  | Ok t1, Ok t2 => tp_extensions t1 = tp_extensions t2
  | Err x1, Err x2 => x1 = x2
  | _, _ => False
  end.
Proof. intros ME c. exact (extensions_isolated_tx c). Qed.
Print Assumptions c22_extensions_isolated.

(** Behind calls of different length the result is the same up to the positions in errors. *)
Theorem c22_extensions_shifted : forall ME (c : chain ME) g before1 before2 exts k mk1 mk2,
  extensions_start mk1 = List.length before1 -> extensions_start mk2 = List.length before2 ->
  List.length before2 = (List.length before1 + k)%nat ->
  extensions_of c g (before2 ++ exts) mk2 = move_outcome k (extensions_of c g (before1 ++ exts) mk1).
Proof. intros ME c. exact (extensions_shifted c). Qed.
Print Assumptions c22_extensions_shifted.

Definition parsed_call (o : outcome (signable_err string) (transaction_parsed string)) :=
  match o with Ok t => Some (tp_call t) | _ => None end.

Definition only_error {A} (o : outcome (signable_err string) A) :=
  match o with Err x => Some x | _ => None end.

(** The same call with two lists of extensions; extensions after an undecodable call. *)
Example c22_example :
  parsed_call (transaction sample_chain (Some genesis) (prefixed the_call ++ mortal_extensions)) = Some (inl call_data) /\
  parsed_call (transaction sample_chain (Some genesis) (prefixed the_call ++ immortal_extensions)) = Some (inl call_data) /\
  parsed_call (transaction sample_chain (Some genesis) (prefixed [7; 7; 7; 7]%N ++ immortal_extensions))
    = Some (inr (Parsing (UnexpectedEnumVariant 1))) /\
  only_error (transaction sample_chain (Some genesis) (prefixed the_call ++ [0]%N)) = Some (Parsing (PBuffer (DataTooShort 6 4))) /\
  only_error (transaction sample_chain (Some genesis) (prefixed [4; 5]%N ++ [0]%N)) = Some (Parsing (PBuffer (DataTooShort 4 4))).
Proof. vm_compute. auto. Qed.

(** C23: accepted extensions match the chain. *)
Theorem c23_marked : forall ME (c : chain ME) g data t, is_bytes data -> transaction c g data = Ok t ->
  exists mk, @mark_data ME data = Ok mk /\ extensions_match c g data (extensions_start mk) (tp_extensions t).
Proof. intros ME c. exact (transaction_matches c). Qed.
Print Assumptions c23_marked.

Theorem c23_unmarked : forall ME (c : chain ME) g data call xs, transaction_unmarked c g data = Ok (call, xs) ->
  exists id x q, ch_call c = inl id /\ decode_at (ch_types c) data id 0 = (Ok x, q) /\ x_data x = DCall call /\
    extensions_match c g data q xs.
Proof. intros ME c. exact (unmarked_matches c). Qed.
Print Assumptions c23_unmarked.

Definition found (o : outcome (signable_err string) (transaction_parsed string)) :=
  match o with
  | Ok t => let l := tp_extensions t in Some (versions l, genesis_hashes l, block_hashes l, eras l)
  | _ => None
  end.

Example c23_example :
  found (transaction sample_chain (Some genesis) (prefixed the_call ++ mortal_extensions))
    = Some ([9010%N], [genesis], [other_hash], [Mortal 64 10]) /\
  found (transaction sample_chain None (prefixed the_call ++ immortal_extensions))
    = Some ([9010%N], [genesis], [genesis], [Immortal]) /\
  exists xs, transaction_unmarked sample_chain (Some genesis) (the_call ++ mortal_extensions) = Ok (call_data, xs).
Proof. split; [vm_compute; reflexivity|split; [vm_compute; reflexivity|]]. eexists. vm_compute. reflexivity. Qed.

(** C24: the answer for the extensions is the documented one, which is unique. *)
Theorem c24_documented : forall ME (c : chain ME) g data mk,
  extension_outcome c g data (extensions_start mk) (extensions_of c g data mk).
Proof. intros ME c. exact (extensions_outcome c). Qed.
Print Assumptions c24_documented.

Theorem c24_unique : forall ME (c : chain ME) g data start o1 o2,
  extension_outcome c g data start o1 -> extension_outcome c g data start o2 -> o1 = o2.
Proof. intros ME c. exact (extension_outcome_unique c). Qed.
Print Assumptions c24_unique.

(** In particular: whatever satisfies the rules is accepted. *)
Theorem c24_accepted : forall ME (c : chain ME) g data mk xs l nv v gh,
  ch_extensions c = inl l -> ch_spec c = inl nv ->
  read_in_turn (ch_types c) data (extension_sequence l) (extensions_start mk) xs (List.length data) ->
  versions xs = [v] -> dec_string v = printed_spec_version nv ->
  genesis_hashes xs = [gh] -> genesis_matches g gh ->
  (List.length (eras xs) <= 1)%nat -> (List.length (block_hashes xs) <= 1)%nat ->
  (eras xs = [Immortal] -> forall h, block_hashes xs = [h] -> h = gh) ->
  extensions_of c g data mk = Ok xs.
Proof.
  intros ME c g data mk xs l nv v gh Hl Hs Hr Hv Hd Hg Hm He Hb Hi.
  apply (extension_outcome_unique c g data (extensions_start mk)); [apply extensions_outcome|].
  eapply EO_accepted; eauto. eapply J_accepted; eauto.
  unfold no_repetition. rewrite Hv, Hg. cbn [List.length]. auto.
Qed.
Print Assumptions c24_accepted.

(** Every rule can be violated. *)
Definition answer (l : list ext_meta) (g : option bytes) (exts : bytes) :=
  only_error (extensions_of (chain_with l) g exts (Marked 0 0)).
Definition usual := [check_version; check_genesis; check_mortality].

Example c24_example :
  answer usual None mortal_extensions = None /\
  answer usual (Some genesis) immortal_extensions = None /\
  answer usual (Some other_hash) mortal_extensions = Some (WrongGenesisHash genesis other_hash) /\
  answer usual None ([0]%N ++ version_bytes ++ genesis ++ other_hash) = Some ImmortalHashMismatch /\
  answer usual None (mortal_extensions ++ [1]%N) = Some (SomeDataNotUsedExtensions 70) /\
  answer usual None ([0; 1; 0; 0; 0]%N ++ genesis ++ genesis) = Some (WrongSpecVersion "1" "9010") /\
  answer [check_version] None version_bytes = Some (ExtensionsList NoGenesisHash) /\
  answer [check_genesis] None genesis = Some (ExtensionsList NoSpecVersion) /\
  answer [check_version; check_version] None (version_bytes ++ version_bytes) = Some (ExtensionsList SpecVersionTwice) /\
  answer [check_genesis; check_genesis] None (genesis ++ genesis) = Some (ExtensionsList GenesisHashTwice) /\
  answer [check_mortality; ExtMeta "X" 4 5] None ([0; 0]%N ++ genesis) = Some (ExtensionsList EraTwice) /\
  answer [check_mortality; ExtMeta "CheckMortality" 5 3] None ([0]%N ++ genesis ++ genesis) = Some (ExtensionsList BlockHashTwice).
Proof. vm_compute. repeat split. Qed.

(** C25: the prefixed and the plain transaction are parsed alike. *)
Theorem c25_marked_unmarked : forall ME (c : chain ME) g cb eb call xs,
  fits U32 (N.of_nat (List.length cb)) = true -> is_bytes (cb ++ eb) ->
  transaction c g (compact_enc (N.of_nat (List.length cb)) ++ cb ++ eb) = Ok (TransactionParsed (inl call) xs) <->
  (transaction_unmarked c g (cb ++ eb) = Ok (call, xs) /\
   exists id x, ch_call c = inl id /\ decode_at (ch_types c) (cb ++ eb) id 0 = (Ok x, List.length cb)).
Proof. intros ME c. exact (marked_unmarked c). Qed.
Print Assumptions c25_marked_unmarked.

Example c25_example : exists xs,
  transaction sample_chain (Some genesis) (prefixed the_call ++ mortal_extensions) = Ok (TransactionParsed (inl call_data) xs) /\
  transaction_unmarked sample_chain (Some genesis) (the_call ++ mortal_extensions) = Ok (call_data, xs).
Proof. eexists. split; vm_compute; reflexivity. Qed.

(** C26: the answer for the call is the documented one, which is unique. *)
Theorem c26_documented : forall ME (c : chain ME) data mk, (extensions_start mk <= List.length data)%nat ->
  call_outcome c data (call_start mk) (extensions_start mk) (call_of c data mk).
Proof. intros ME c. exact (call_answer c). Qed.
Print Assumptions c26_documented.

Theorem c26_unique : forall ME (c : chain ME) data start stop o1 o2,
  call_outcome c data start stop o1 -> call_outcome c data start stop o2 -> o1 = o2.
Proof. intros ME c. exact (call_outcome_unique c). Qed.
Print Assumptions c26_unique.

(** Marks always fit. *)
Theorem c26_marks_fit : forall ME data mk, is_bytes data -> @mark_data ME data = Ok mk ->
  (call_start mk <= extensions_start mk <= List.length data)%nat.
Proof. intros ME. exact mark_inside. Qed.
Print Assumptions c26_marks_fit.

(** What is returned follows the pallet-call pattern. *)
Theorem c26_pattern : forall ME (c : chain ME) data mk id call, is_bytes data ->
  (extensions_start mk <= List.length data)%nat -> ch_call c = inl id -> call_of c data mk = Ok call ->
  pallet_call (ch_types c) (firstn (extensions_start mk) data) id (call_start mk) call /\
  exists x, decode_at (ch_types c) (firstn (extensions_start mk) data) id (call_start mk) = (Ok x, extensions_start mk).
Proof.
  intros ME c data mk id call Hb Hn Hi Hc. pose proof (call_answer c data mk Hn) as H. rewrite Hc in H.
  inversion H as [| | | |id' x d Hi' Hd Hx]; subst. rewrite Hi in Hi'. injection Hi' as <-. split; [|eauto].
  apply (dcall_pattern c _ _ _ x (extensions_start mk)); auto. apply Forall_firstn, Hb.
Qed.
Print Assumptions c26_pattern.

Example c26_example :
  call_of sample_chain (prefixed the_call ++ mortal_extensions) (Marked 1 5) = Ok call_data /\
  call_of sample_chain (prefixed (the_call ++ [9]%N) ++ mortal_extensions) (Marked 1 6) = Err (SomeDataNotUsedCall 5 6) /\
  call_of sample_chain (prefixed (firstn 3 the_call) ++ mortal_extensions) (Marked 1 4)
    = Err (Parsing (NoCompact 3)) /\
  call_of sample_chain (prefixed [0; 1; 1; 1; 1]%N ++ mortal_extensions) (Marked 1 6) = Err (NotACall 9).
Proof. vm_compute. auto. Qed.
