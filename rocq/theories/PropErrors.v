(** C52: the message shown for an error tells which error it is. *)
From Verif Require Import Base Compact Types Indicators Decode Sign Unchecked Storage Meta Balance Cards Errors SpecErrors
  ProofErrors Spec SpecCards ProofBalance ProofCards ProofSee ProofShow Sample SampleChain PropSign Api ApiSign ApiStorage.
Local Open Scope string_scope.
Local Open Scope list_scope.

(** Two failing runs on any chains, expected hashes and bytes: if the messages are the same, the
    errors are the same, positions, type identifiers, hashes and versions included. *)
Definition failed {ME} (c : chain ME) (g : option bytes) (data : bytes) (x : signable_err ME) : Prop :=
  transaction c g data = Err x \/ (exists t, transaction c g data = Ok t /\ tp_call t = inr x)
  \/ transaction_unmarked c g data = Err x.
Definition hash_or_none (g : option bytes) : Prop := match g with Some h => is_bytes h | None => True end.

Theorem c52_transaction_messages : forall ME (meta_text : ME -> string) buffer_text external_text,
  telling anything meta_text -> buffer_texts_fit buffer_text -> telling anything external_text ->
  forall c1 c2 g1 g2 data1 data2 x1 x2, is_bytes data1 -> is_bytes data2 -> hash_or_none g1 -> hash_or_none g2 ->
  failed c1 g1 data1 x1 -> failed c2 g2 data2 x2 ->
  signable_text buffer_text external_text meta_text x1 = signable_text buffer_text external_text meta_text x2 -> x1 = x2.
Proof.
  intros ME mt bt et Hm Hb He c1 c2 g1 g2 d1 d2 x1 x2 B1 B2 G1 G2 F1 F2.
  apply (signable_telling bt et Hb He mt Hm).
  - destruct F1 as [F|[F|F] ].
    + exact (transaction_reported c1 g1 G1 d1 x1 B1 (or_introl F)).
    + exact (transaction_reported c1 g1 G1 d1 x1 B1 (or_intror F)).
    + exact (unmarked_reported c1 g1 G1 d1 x1 B1 F).
  - destruct F2 as [F|[F|F] ].
    + exact (transaction_reported c2 g2 G2 d2 x2 B2 (or_introl F)).
    + exact (transaction_reported c2 g2 G2 d2 x2 B2 (or_intror F)).
    + exact (unmarked_reported c2 g2 G2 d2 x2 B2 F).
Qed.
Print Assumptions c52_transaction_messages.

Theorem c52_parser_messages : forall buffer_text external_text,
  buffer_texts_fit buffer_text -> telling anything external_text -> telling anything (parser_text buffer_text external_text).
Proof. exact parser_telling. Qed.
Print Assumptions c52_parser_messages.

Theorem c52_storage_messages : forall buffer_text external_text,
  buffer_texts_fit buffer_text -> telling anything external_text -> telling anything (storage_text buffer_text external_text).
Proof. exact storage_telling. Qed.
Print Assumptions c52_storage_messages.

Theorem c52_unchecked_messages : forall ME (meta_text : ME -> string) buffer_text external_text,
  telling anything meta_text -> buffer_texts_fit buffer_text -> telling anything external_text ->
  telling anything (unchecked_text buffer_text external_text meta_text).
Proof. intros ME mt bt et Hm Hb He. exact (unchecked_telling bt et Hb He mt Hm). Qed.
Print Assumptions c52_unchecked_messages.

(** The metadata errors of V14 and V15. *)
Theorem c52_metadata_messages : telling anything v14_text /\ telling anything version_text.
Proof. exact (conj v14_telling version_telling). Qed.
Print Assumptions c52_metadata_messages.

(** What is in the messages: the trouble is named, and each value stands beside the words telling
    what it is (the hash found in the data and the expected one are not exchanged). *)
Definition in_text (phrases : list string) (text : string) : Prop := Forall (says text) phrases.

Lemma says_after s text phrase : says text phrase -> says (append s text) phrase.
Proof. intros (u & v & ->). exists (append s u), v. symmetry. apply str_assoc. Qed.
Lemma says_all phrase : says phrase phrase.
Proof. exists ""%string, ""%string. induction phrase as [|c s IH]; [reflexivity|]. simpl in *. f_equal. exact IH. Qed.
Lemma says_step c text phrase : says text phrase -> says (String c text) phrase.
Proof. exact (says_after (String c "") text phrase). Qed.
Lemma in_text_after s l text : in_text l text -> in_text l (append s text).
Proof. apply Forall_impl. intros phrase. apply says_after. Qed.

Ltac phrase_here := exists ""%string; eexists; cbn [append]; do 2 (rewrite ?str_assoc; cbn [append]); reflexivity.
Ltac phrase := cbn [append]; repeat first [phrase_here | apply says_all | apply says_step | apply says_after].
Ltac phrases := repeat (apply Forall_cons; [phrase|]); apply Forall_nil.

Lemma int_words x : in_text (int_phrases x) (int_text x).
Proof. destruct x; cbn [int_phrases int_text]; phrases. Qed.
Lemma ext_words x : in_text (ext_phrases x) (extensions_text x).
Proof. destruct x; cbn [ext_phrases extensions_text]; phrases. Qed.
Lemma version_words x : in_text (version_phrases x) (version_text x).
Proof. destruct x; cbn [version_phrases version_text]; phrases. Qed.
Lemma v14_words x : in_text (v14_phrases x) (v14_text x).
Proof.
  destruct x; cbn [v14_phrases v14_text]; try phrases.
  - apply Forall_cons; [phrase|]. apply in_text_after, int_words.
  - apply version_words.
Qed.
Lemma parser_words bt et x : in_text (parser_phrases bt et x) (parser_text bt et x).
Proof.
  destruct x as [y|[code|y]|p|p|p ty|p]; cbn [parser_phrases parser_text registry_text]; try phrases.
  apply int_words.
Qed.

Theorem c52_words : forall ME (meta_text : ME -> string) buffer_text external_text,
  (forall x, in_text (parser_phrases buffer_text external_text x) (parser_text buffer_text external_text x)) /\
  (forall x, in_text (signable_phrases buffer_text external_text meta_text x) (signable_text buffer_text external_text meta_text x)) /\
  (forall x, in_text (unchecked_phrases buffer_text external_text meta_text x) (unchecked_text buffer_text external_text meta_text x)) /\
  (forall x, in_text (storage_phrases buffer_text external_text x) (storage_text buffer_text external_text x)) /\
  (forall x, in_text (v14_phrases x) (v14_text x)) /\ (forall x, in_text (version_phrases x) (version_text x)).
Proof.
  intros ME mt bt et. split; [apply parser_words|]. split; [|split; [|split; [|split; [apply v14_words|apply version_words] ] ] ].
  - destruct x as [|y| |y|id|y|from to|from|a g|a v]; cbn [signable_phrases signable_text]; try phrases.
    + apply ext_words.
    + apply Forall_cons; [phrase|]. apply in_text_after, parser_words.
  - destruct x as [|y|y|a v|id]; cbn [unchecked_phrases unchecked_text]; try phrases.
    apply Forall_cons; [phrase|]. apply in_text_after, parser_words.
  - destruct x as [| | | | |y|y|]; cbn [storage_phrases storage_text]; try phrases.
    all: apply Forall_cons; [phrase|]; apply in_text_after, parser_words.
Qed.
Print Assumptions c52_words.

(** The premises can be met: texts for the buffer errors (in the manner of the other crate). *)
Definition sample_buffer_text (x : buf_err) : string :=
  match x with
  | BExternal code => "External memory: " ++ dec_string code
  | DataTooShort position n => "Data is too short: at position " ++ nat_string position ++ " expected " ++ dec_string n ++ " more."
  | OutOfRange position total => "Position " ++ nat_string position ++ " is out of range for data length " ++ nat_string total ++ "."
  end.

Theorem c52_premises_met : buffer_texts_fit sample_buffer_text /\ telling anything dec_string.
Proof.
  split; [split|intros x y _ _; apply dec_inj].
  - intros x y _ _ E. destruct x, y; unfold sample_buffer_text in E; try apart.
    + apply str_cancel_left in E. apply dec_inj in E. subst. reflexivity.
    + apply str_cancel_left in E. apply nat_then in E; [|reflexivity]. destruct E as [-> E].
      apply (str_cancel_left "expected ") in E. apply dec_then in E; [|reflexivity]. destruct E as [-> _]. reflexivity.
    + apply str_cancel_left in E. apply nat_then in E; [|reflexivity]. destruct E as [-> E].
      apply (str_cancel_left "is out of range for data length ") in E. apply nat_then in E; [|reflexivity].
      destruct E as [-> _]. reflexivity.
  - intros x o Ho. repeat (destruct Ho as [<-|Ho]; [destruct x; reflexivity|]). destruct Ho.
Qed.
Print Assumptions c52_premises_met.

Definition message (l : list ext_meta) (g : option bytes) (exts : bytes) : option string :=
  option_map (signable_text sample_buffer_text dec_string (fun s => s)) (answer l g exts).

Example c52_example :
  message usual None (mortal_extensions ++ [1]%N)
    = Some "Some extensions data (input positions [70..]) remained unused after decoding." /\
  message usual None ([0; 1; 0; 0; 0]%N ++ genesis ++ genesis)
    = Some "Wrong metadata spec version. When decoding extensions data with metadata version 9010, the apparent spec version in extensions is 1." /\
  message [check_version] None version_bytes
    = Some "Signable transaction extensions do not include chain genesis hash. Unable to verify that correct chain is used for parsing." /\
  message usual None [0]%N = Some "Parsing error. Data is too short: at position 1 expected 4 more.".
Proof. vm_compute. auto. Qed.
