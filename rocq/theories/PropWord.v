(** C64: machine words. Positions and lengths are unbounded in the model; here the same code runs
    with `usize` of [W] bits (Word.v). Statements; proofs in ProofAsk.v and ProofWord.v,
    specification in SpecWord.v. *)
From Coq Require Import Lia ZifyBool ZifyNat ZifyN.
From Verif Require Import Base Compact Types Indicators Decode Sign Unchecked Storage Spec SpecSource SpecUnchecked
  Api ApiSign ApiStorage ProofBase ProofCompact ProofSafe2 SpecWord Word ProofAsk ProofWord ProofSign ProofPrefixFree Sample SampleChain PropUnchecked.
Local Open Scope string_scope.
Local Open Scope list_scope.

(** Whatever the registry and the data, a decoding asks a memory for nothing but what is described
    by [asked]: it starts inside the data, and is for less than 2^32 bytes or ends inside. So two
    memories that answer such requests equally give the same answer, position and state. *)
Theorem c64_requests : forall E (r : registry E) (b1 b2 : buffer E) id pos e, good_buffer b1 -> gives_bytes b1 ->
  total_len b2 = total_len b1 ->
  (forall p n e, asked (Nat.max pos (total_len b1)) p n -> rd b1 p n e = rd b2 p n e) ->
  decode_as_type_at_position b1 r id pos e = decode_as_type_at_position b2 r id pos e.
Proof.
  intros E r b1 b2 id pos e Hg Hb Hl Hrd.
  apply (same_at (Nat.max pos (total_len b1)) r b1 b2 Hl ltac:(lia) Hg Hb Hrd pos id ltac:(lia) e).
Qed.
Print Assumptions c64_requests.

Theorem c64_requests_all : forall E (r : registry E) (b1 b2 : buffer E) id e, good_buffer b1 -> gives_bytes b1 ->
  total_len b2 = total_len b1 ->
  (forall p n e, asked (total_len b1) p n -> rd b1 p n e = rd b2 p n e) ->
  decode_all_as_type b1 r id e = decode_all_as_type b2 r id e.
Proof.
  intros E r b1 b2 id e Hg Hb Hl Hrd. unfold decode_all_as_type.
  destruct (same_all (total_len b1) r b1 b2 Hl ltac:(lia) Hg Hb Hrd 0 id ltac:(lia) e) as [-> _]. reflexivity.
Qed.
Print Assumptions c64_requests_all.

(** The same answers on a machine that is large enough for the data. *)
Theorem c64_decode : forall W a types data id pos, is_bytes data -> roomy W (wraps a) (List.length data) ->
  (N.of_nat pos < 2 ^ W)%N ->
  fst (decode_as_type_at_position (word_buffer W a data) (portable types) id pos tt) = decode_at types data id pos.
Proof.
  intros W a types data id pos Hd Hr Hp. unfold decode_at.
  destruct (@decode_word unit W a (Nat.max pos (List.length data)) (portable types) data pos id Hd Hr) with (e := tt) as [<- _];
    [destruct Hr; lia|lia|lia|].
  destruct (decode_as_type_at_position _ _ _ _ _) as [[o q] e]. reflexivity.
Qed.
Print Assumptions c64_decode.

Theorem c64_decode_all : forall W a types data id, is_bytes data -> roomy W (wraps a) (List.length data) ->
  fst (decode_all_as_type (word_buffer W a data) (portable types) id tt) = decode_all types data id.
Proof.
  intros W a types data id Hd Hr. unfold decode_all. f_equal. symmetry.
  apply c64_requests_all; [apply good_slice|apply slice_gives_bytes, Hd|reflexivity|].
  intros p n e. cbn [total_len slice_buffer]. apply word_agree; [exact Hr|apply Hr].
Qed.
Print Assumptions c64_decode_all.

Theorem c64_transaction : forall W a ME (c : chain ME) g data, is_bytes data -> roomy W (wraps a) (List.length data) ->
  result (parse_transaction_w W a data (chain_metadata c) g) = transaction c g data.
Proof.
  intros W a ME c g data Hd Hr. unfold transaction, result. f_equal. f_equal. symmetry.
  apply (same_transaction W a (chain_metadata c) data Hd Hr g 0 ltac:(lia) tt).
Qed.
Print Assumptions c64_transaction.

Theorem c64_transaction_unmarked : forall W a ME (c : chain ME) g data, is_bytes data ->
  roomy W (wraps a) (List.length data) ->
  result (parse_transaction_unmarked (word_buffer W a data) (chain_metadata c) g) = transaction_unmarked c g data.
Proof.
  intros W a ME c g data Hd Hr. unfold transaction_unmarked, result. f_equal. f_equal. symmetry.
  apply (same_transaction_unmarked W a (chain_metadata c) data Hd Hr g 0 ltac:(lia) tt).
Qed.
Print Assumptions c64_transaction_unmarked.

Theorem c64_storage : forall W a blake2_128 twox_64 types key value entry, is_bytes key -> is_bytes value ->
  roomy W (wraps a) (List.length key) -> roomy W (wraps a) (List.length value) ->
  fst (fst (decode_as_storage_entry blake2_128 twox_64 (word_buffer W a key) (word_buffer W a value) entry (portable types) 0 tt))
  = storage_entry blake2_128 twox_64 types key value entry.
Proof.
  intros W a bl tw types key value entry Hk Hv Rk Rv. unfold storage_entry, decode_as_storage_entry. f_equal. f_equal.
  change (total_len (word_buffer W a key)) with (List.length key). change (total_len (@slice_buffer unit key)) with (List.length key).
  destruct (Nat.ltb_spec (List.length key) PREFIX_LEN) as [|Hlen]; [reflexivity|].
  assert (HV : forall id p (e : unit), (p <= List.length value)%nat ->
    decode_all_m (slice_buffer value) (portable types) id p e = decode_all_m (word_buffer W a value) (portable types) id p e).
  { intros id p e Hp.
    refine (proj1 (same_all_m (List.length value) (portable types) (slice_buffer value) (word_buffer W a value) eq_refl
      (le_n _) (good_slice value) (slice_gives_bytes value Hv) _ p id Hp e)).
    intros q n e'. apply word_agree; [exact Rv|apply Rv]. }
  assert (HV0 : forall id p (e : unit), decode_all_m (slice_buffer value) (portable types) id p e
    = decode_all_m (word_buffer W a value) (portable types) id p e).
  { intros id p e. pose proof (HV id 0 e ltac:(lia)) as H. unfold decode_all_m, bind, at_local in *.
    destruct (decode_all_body (slice_buffer value) (portable types) id 0 e) as [[[x|x| |] q] e1],
      (decode_all_body (word_buffer W a value) (portable types) id 0 e) as [[[y|y| |] q2] e2];
      unfold ret in *; congruence. }
  destruct (en_ty entry) as [vt|hs kt vt].
  - destruct (negb _); [reflexivity|]. unfold bind, map_err. rewrite HV0. reflexivity.
  - assert (HK : process_key_mapped bl tw hs kt (slice_buffer key) PREFIX_LEN (portable types) 0 tt
      = process_key_mapped bl tw hs kt (word_buffer W a key) PREFIX_LEN (portable types) 0 tt).
    { refine (proj1 (same_process (List.length key) (portable types) (slice_buffer key) (word_buffer W a key) eq_refl
        (le_n _) (good_slice key) (slice_gives_bytes key Hk) _ 0 bl tw hs kt PREFIX_LEN Hlen (Nat.le_0_l _) tt)).
      intros q n e'. apply word_agree; [exact Rk|apply Rk]. }
    unfold bind. rewrite <- HK.
    destruct (process_key_mapped _ _ _ _ (slice_buffer key) _ _ _ _) as [[[k|x| |] q] e]; try reflexivity.
    unfold map_err. rewrite HV0. reflexivity.
Qed.
Print Assumptions c64_storage.

Theorem c64_unchecked : forall W a ME (c : chain ME) data, is_bytes data -> roomy W (wraps a) (List.length data) ->
  (forall n, ~ overlong W data n) ->
  result (decode_as_unchecked_extrinsic_w W a data (chain_metadata c)) = unchecked_extrinsic c data.
Proof.
  intros W a ME c data Hd Hr Ho. unfold unchecked_extrinsic, result. f_equal. f_equal. symmetry.
  apply (same_unchecked W a (chain_metadata c) data Hd Hr 0 Ho ltac:(lia) tt).
Qed.
Print Assumptions c64_unchecked.

(** Machines with 64 bits are large enough for anything below 2^63 bytes, with or without overflow
    checks, and nothing is too long for them. So on them the unbounded model is exact. *)
Lemma words64 : (2 ^ 64 = 18446744073709551616)%N.
Proof. reflexivity. Qed.
Lemma words32 : (2 ^ 32 = 4294967296)%N.
Proof. reflexivity. Qed.

Theorem c64_64bit : forall a len, (N.of_nat len < 2 ^ 63)%N -> roomy 64 (wraps a) len.
Proof.
  intros a len. rewrite (eq_refl : (2 ^ 63 = 9223372036854775808)%N). unfold roomy. rewrite words64. intros H.
  split; [lia|]. left. lia.
Qed.
Print Assumptions c64_64bit.

Lemma not_overlong_64 data n : ~ overlong 64 data n.
Proof.
  intros (Hf & _ & H). rewrite words64 in H. pose proof (fits_u32 n Hf). pose proof (compact_enc_length U32 n Hf). lia.
Qed.

Theorem c64_unchecked_64bit : forall a ME (c : chain ME) data, is_bytes data -> (N.of_nat (List.length data) < 2 ^ 63)%N ->
  result (decode_as_unchecked_extrinsic_w 64 a data (chain_metadata c)) = unchecked_extrinsic c data.
Proof.
  intros a ME c data Hd Hl. apply c64_unchecked; [exact Hd|apply c64_64bit, Hl|apply not_overlong_64].
Qed.
Print Assumptions c64_unchecked_64bit.

(** On machines with 32 bits all but unchecked extrinsics are as in the model if overflows wrap,
    whatever the data. *)
Theorem c64_32bit_wrapping : forall len, (N.of_nat len < 2 ^ 32)%N -> roomy 32 (wraps Wrapping) len.
Proof. intros len H. split; [exact H|]. right. split; [reflexivity|]. rewrite words32. lia. Qed.
Print Assumptions c64_32bit_wrapping.

Lemma overlong_dec W data : is_bytes data -> (exists n, overlong W data n) \/ (forall n, ~ overlong W data n).
Proof.
  intros Hd.
  assert (Hget : forall n rest, fits U32 n = true -> data = compact_enc n ++ rest ->
    get_compact U32 (slice_buffer data) 0 tt = (Ok n, List.length (compact_enc n), tt)).
  { intros n rest Hf Hx. apply get_compact_ok; [exact Hd|]. split; [reflexivity|]. split; [exact Hf|]. split; [reflexivity|].
    rewrite Hx, app_length. split; [lia|]. unfold slice. cbn [skipn]. apply firstn_app_exact. }
  destruct (get_compact U32 (slice_buffer data) 0 tt) as [[[n|x| |] s] e] eqn:Hg.
  2-4: right; intros n (Hf & (rest & Hx) & _); discriminate (Hget n rest Hf Hx).
  apply (announced data Hd) in Hg as (Hf & _ & rest & Hx).
  destruct (N.leb_spec (2 ^ W) (N.of_nat (List.length (compact_enc n)) + n)) as [H|H].
  - left. exists n. split; [exact Hf|]. split; [eauto|exact H].
  - right. intros n' (Hf' & (rest' & Hx') & Ho).
    assert (n = n') as <-.
    { pose proof (Hget n' rest' Hf' Hx') as H2. congruence. }
    lia.
Qed.

(** With overflow checks, marking a transaction on a 32-bit machine panics exactly for data that
    announce a call whose end has no number there; otherwise the answer is that of the model. *)
Theorem c64_mark_32bit : forall ME data, is_bytes data -> (N.of_nat (List.length data) < 2 ^ 31)%N ->
  ((exists n, overlong 32 data n) /\ result (@mark_w 32 Checked unit ME data) = Panic /\ @mark_data ME data = Err CutSignable) \/
  ((forall n, ~ overlong 32 data n) /\ result (@mark_w 32 Checked unit ME data) = @mark_data ME data).
Proof.
  intros ME data Hd. rewrite (eq_refl : (2 ^ 31 = 2147483648)%N). intros Hl.
  assert (HW : (N.of_nat (List.length data) + 18 < 2 ^ 32)%N) by (rewrite words32; lia).
  destruct (overlong_dec 32 data Hd) as [ [n Ho]|Ho].
  - left. split; [eauto|]. unfold result. rewrite (mark_overlong 32 data n 0 tt Hd HW Ho). split; [reflexivity|].
    destruct (@mark_spec ME data Hd) as [H|[_ H] ]; [|exact H]. exfalso.
    destruct Ho as (Hf & (rest & Hx) & Ho). rewrite words32 in Ho.
    destruct H as (n' & call & rest' & Hf' & Hx' & Hc & _).
    assert (He : compact_enc n ++ rest = compact_enc n' ++ call ++ rest') by congruence.
    pose proof (compact_enc_prefix U32 n n' _ _ Hf Hf' He) as <-.
    rewrite Hx' in Hl. rewrite !app_length in Hl. pose proof (compact_enc_length U32 n Hf). lia.
  - right. split; [exact Ho|]. unfold result. rewrite (mark_not_overlong 32 Checked data 0 tt Hd HW Ho). reflexivity.
Qed.
Print Assumptions c64_mark_32bit.

Theorem c64_transaction_32bit : forall ME (c : chain ME) g data n, is_bytes data -> (N.of_nat (List.length data) < 2 ^ 31)%N ->
  overlong 32 data n ->
  result (parse_transaction_w 32 Checked data (chain_metadata c) g) = Panic /\
  result (parse_transaction_w 32 Wrapping data (chain_metadata c) g) = Err CutSignable /\ transaction c g data = Err CutSignable.
Proof.
  intros ME c g data n Hd Hl Ho.
  assert (Hl2 : (N.of_nat (List.length data) < 2 ^ 32)%N).
  { rewrite (eq_refl : (2 ^ 31 = 2147483648)%N) in Hl. rewrite words32. lia. }
  assert (HW : (N.of_nat (List.length data) + 18 < 2 ^ 32)%N).
  { rewrite (eq_refl : (2 ^ 31 = 2147483648)%N) in Hl. rewrite words32. lia. }
  assert (Ht : transaction c g data = Err CutSignable).
  { destruct (c64_mark_32bit ME data Hd Hl) as [(_ & _ & H)|[H _] ]; [|destruct (H n Ho)].
    unfold mark_data, result in H. unfold transaction, result, parse_transaction, bind at 1.
    destruct (mark (slice_buffer data) 0 tt) as [[[mk|x| |] q] e]; cbn [fst] in *; congruence. }
  split; [|split; [|exact Ht] ].
  - unfold result, parse_transaction_w, bind at 1. rewrite (mark_overlong 32 data n 0 tt Hd HW Ho). reflexivity.
  - rewrite c64_transaction; [exact Ht|exact Hd|apply c64_32bit_wrapping, Hl2].
Qed.
Print Assumptions c64_transaction_32bit.

(** And an unchecked extrinsic that announces such a length is told to be cut short by the model,
    panics with overflow checks, and is told to have unused data without. *)
Theorem c64_unchecked_32bit : forall ME (c : chain ME) ps data n, is_bytes data -> (N.of_nat (List.length data) < 2 ^ 31)%N ->
  ch_params c = inl ps -> overlong 32 data n ->
  result (decode_as_unchecked_extrinsic_w 32 Checked data (chain_metadata c)) = Panic /\
  result (decode_as_unchecked_extrinsic_w 32 Wrapping data (chain_metadata c))
    = Err (UParsing (SomeDataNotUsedBlob (N.to_nat (N.of_nat (List.length (compact_enc n)) + n - 2 ^ 32)))) /\
  unchecked_extrinsic c data = Err (UParsing (PBuffer (DataTooShort (List.length data)
    (N.of_nat (List.length (compact_enc n)) + n - N.of_nat (List.length data))))).
Proof.
  intros ME c ps data n Hd. rewrite (eq_refl : (2 ^ 31 = 2147483648)%N). intros Hl Hps Ho.
  assert (HW : (N.of_nat (List.length data) + 18 < 2 ^ 32)%N) by (rewrite words32; lia).
  assert (H32 : (4294967296 <= 2 ^ 32)%N) by (rewrite words32; lia).
  split; [exact (unchecked_overlong 32 Checked data n (chain_metadata c) ps 0 tt Hd HW H32 Hps Ho)|].
  split; [exact (unchecked_overlong 32 Wrapping data n (chain_metadata c) ps 0 tt Hd HW H32 Hps Ho)|].
  destruct Ho as (Hf & (rest & Hx) & Ho). rewrite words32 in Ho. clear HW H32. subst data.
  apply is_bytes_app in Hd as [_ Hr]. rewrite app_length in Hl. pose proof (compact_enc_length U32 n Hf).
  rewrite (c30_wrong_length ME c ps n rest Hps Hr Hf ltac:(lia)).
  destruct (N.ltb_spec n (N.of_nat (List.length rest))); [lia|]. rewrite app_length.
  replace (N.of_nat (List.length (compact_enc n)) + n - N.of_nat (List.length (compact_enc n) + List.length rest))%N
    with (n - N.of_nat (List.length rest))%N by lia. reflexivity.
Qed.
Print Assumptions c64_unchecked_32bit.

(** Five bytes are enough. *)
Example c64_case_bytes : overlong 32 [3; 255; 255; 255; 255]%N 4294967295.
Proof. split; [reflexivity|]. split; [exists []; reflexivity|]. vm_compute. discriminate. Qed.
Example c64_case_mark :
  result (@mark_w 32 Checked unit string [3; 255; 255; 255; 255]%N) = Panic /\
  result (@mark_w 32 Wrapping unit string [3; 255; 255; 255; 255]%N) = Err CutSignable /\
  result (@mark_w 64 Checked unit string [3; 255; 255; 255; 255]%N) = Err CutSignable /\
  result (@mark_w 32 Checked unit string (prefixed the_call ++ mortal_extensions)) = Ok (Marked 1 5).
Proof. vm_compute. auto. Qed.
Example c64_case_transaction :
  result (parse_transaction_w 32 Checked (prefixed the_call ++ mortal_extensions) (chain_metadata sample_chain) (Some genesis))
    = transaction sample_chain (Some genesis) (prefixed the_call ++ mortal_extensions) /\
  exists t, transaction sample_chain (Some genesis) (prefixed the_call ++ mortal_extensions) = Ok t.
Proof. split; [vm_compute; reflexivity|]. eexists. vm_compute. reflexivity. Qed.
Example c64_case_unchecked :
  result (decode_as_unchecked_extrinsic_w 32 Wrapping [3; 255; 255; 255; 255]%N (chain_metadata sample_chain))
    = Err (UParsing (SomeDataNotUsedBlob 4)) /\
  result (decode_as_unchecked_extrinsic_w 32 Checked [3; 255; 255; 255; 255]%N (chain_metadata sample_chain)) = Panic /\
  unchecked_extrinsic sample_chain [3; 255; 255; 255; 255]%N = Err (UParsing (PBuffer (DataTooShort 5 4294967295))) /\
  result (decode_as_unchecked_extrinsic_w 32 Checked (frame signed_content) (chain_metadata sample_chain)) = Ok signed_shown.
Proof. vm_compute. auto. Qed.

(** The same with texts: with overflow checks the sum panics inside the memory. *)
Example c64_case_text :
  decode_as_type_at_position (word_buffer 32 Checked [3; 255; 255; 255; 255]%N) (portable sample_wf) 5 0 tt
    = (Err (PBuffer (BExternal OVERFLOW)), 0, tt) /\
  decode_as_type_at_position (word_buffer 32 Wrapping [3; 255; 255; 255; 255]%N) (portable sample_wf) 5 0 tt
    = (Err (PBuffer (DataTooShort 5 4294967295)), 0, tt) /\
  decode_at sample_wf [3; 255; 255; 255; 255]%N 5 0 = (Err (PBuffer (DataTooShort 5 4294967295)), 0) /\
  decode_as_type_at_position (word_buffer 32 Checked [8; 104; 105]%N) (portable sample_wf) 5 0 tt
    = (Ok (Ext (DText [104; 105]%N SsNone) []), 3, tt).
Proof. vm_compute. auto. Qed.
