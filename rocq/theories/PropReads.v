(** C65: the number of reads. `AddressableBuffer::read_slice` may be slow (external memory), and is
    supplied by the user: the number of its calls is what a parse costs. Statements; proofs in
    ProofReads.v and ProofReads2.v, specification in SpecReads.v. *)
From Coq Require Import Lia ZifyBool ZifyNat ZifyN.
From Verif Require Import Base Compact Types Indicators Decode Sign Unchecked Storage Spec SpecSource
  Api ApiSign ApiStorage ProofBase ProofSafe2 SpecReads ProofReads ProofReads2 Sample SampleChain.
Local Open Scope string_scope.
Local Open Scope list_scope.

(** A successful decoding makes at most two reads for a byte that it uses, a failed one at most 19
    more; whatever memory holds the data and the types, and from wherever the decoding starts. *)
Theorem c65_decode : forall E (count : E -> nat) (b : buffer E) (r : registry E),
  counts_reads count b -> lookup_is_free count r -> registry_inhabited r ->
  forall id pos e o q e', decode_as_type_at_position b r id pos e = (o, q, e') ->
  pos <= q /\ count e' <= count e + 2 * (q - pos) + match o with Ok _ => 0 | _ => 19 end.
Proof.
  intros E count b r Hrd Hres Ht id pos e o q e' H. pose proof (fair_at count r b Hrd Hres Ht pos id e) as HF. rewrite H in HF.
  destruct HF as (k & Hk & HF). destruct o; destruct HF as [H1 H2]; lia.
Qed.
Print Assumptions c65_decode.

(** So the reads of a whole parse are bounded by the length of the data alone. *)
Theorem c65_decode_all : forall E (count : E -> nat) (b : buffer E) (r : registry E),
  counts_reads count b -> lookup_is_free count r -> registry_inhabited r -> good_buffer b -> good_registry r ->
  forall id e o e', decode_all_as_type b r id e = (o, e') ->
  count e' <= count e + 2 * total_len b + match o with Ok _ => 0 | _ => 19 end.
Proof.
  intros E count b r Hrd Hres Ht Hb Hr id e o e' H. unfold decode_all_as_type in H.
  pose proof (even_all count r Hres Ht Hr b Hb Hrd 0 id e) as HF.
  destruct (decode_all_body b r id 0 e) as [[o' q] e2]. injection H as <- <-. destruct HF as (k & Hk & HF).
  destruct o'; [destruct HF as [H1 H2]|..]; unfold over in *; lia.
Qed.
Print Assumptions c65_decode_all.

Theorem c65_transaction : forall E ME (count : E -> nat) (b : buffer E) (m : metadata E ME),
  counts_reads count b -> lookup_is_free count (m_types m) -> registry_inhabited (m_types m) ->
  good_buffer b -> good_registry (m_types m) ->
  forall g pos e o q e', parse_transaction b m g pos e = (o, q, e') ->
  count e' <= count e + 2 * total_len b + match o with Ok t => match tp_call t with inl _ => 0 | inr _ => 19 end | _ => 19 end.
Proof.
  intros E ME count b m Hrd Hres Ht Hb Hr g pos e o q e' H.
  pose proof (pays_transaction count m Hres Ht Hr b Hb Hrd g pos e) as HF. rewrite H in HF.
  destruct HF as (k & Hk & HF). destruct o; lia.
Qed.
Print Assumptions c65_transaction.

Theorem c65_transaction_unmarked : forall E ME (count : E -> nat) (b : buffer E) (m : metadata E ME),
  counts_reads count b -> lookup_is_free count (m_types m) -> registry_inhabited (m_types m) ->
  good_buffer b -> good_registry (m_types m) ->
  forall g pos e o q e', parse_transaction_unmarked b m g pos e = (o, q, e') ->
  count e' <= count e + 2 * total_len b + match o with Ok _ => 0 | _ => 19 end.
Proof.
  intros E ME count b m Hrd Hres Ht Hb Hr g pos e o q e' H.
  pose proof (pays_transaction_unmarked count m Hres Ht Hr b Hb Hrd g pos e) as HF. rewrite H in HF.
  destruct HF as (k & Hk & HF). destruct o; lia.
Qed.
Print Assumptions c65_transaction_unmarked.

Theorem c65_unchecked : forall E ME (count : E -> nat) (b : buffer E) (m : metadata E ME),
  counts_reads count b -> lookup_is_free count (m_types m) -> registry_inhabited (m_types m) ->
  good_buffer b -> good_registry (m_types m) ->
  forall pos e o q e', decode_as_unchecked_extrinsic b m pos e = (o, q, e') ->
  count e' <= count e + 2 * total_len b + match o with Ok _ => 0 | _ => 19 end.
Proof.
  intros E ME count b m Hrd Hres Ht Hb Hr pos e o q e' H.
  pose proof (pays_unchecked count m Hres Ht Hr b Hb Hrd pos e) as HF. rewrite H in HF.
  destruct HF as (k & Hk & HF). destruct o; lia.
Qed.
Print Assumptions c65_unchecked.

(** Storage entries: the 32 bytes of the prefix are never read. *)
Theorem c65_storage : forall E (count : E -> nat) blake2_128 twox_64 (key value : buffer E) (r : registry E),
  counts_reads count key -> counts_reads count value -> lookup_is_free count r -> registry_inhabited r ->
  good_buffer key -> good_buffer value -> good_registry r ->
  forall entry pos e o q e', decode_as_storage_entry blake2_128 twox_64 key value entry r pos e = (o, q, e') ->
  count e' <= count e + 2 * (total_len key - 32) + 2 * total_len value + match o with Ok _ => 0 | _ => 19 end.
Proof.
  intros E count bl tw key value r Hk Hv Hres Ht Hgk Hgv Hr entry pos e o q e' H.
  pose proof (pays_storage count bl tw r Hres Ht Hr key value entry pos Hgk Hk Hgv Hv e) as HF. rewrite H in HF.
  change PREFIX_LEN with 32 in HF. destruct HF as (k & Hk' & HF). destruct o; lia.
Qed.
Print Assumptions c65_storage.

(** ** The hypotheses *)

(** Bytes in memory, with a count of the reads: the answers are those of the slice. *)
Theorem c65_counted : forall data, counts_reads (fun k => k) (counted data) /\ good_buffer (counted data) /\
  total_len (counted data) = List.length data /\
  forall p n k, rd (counted data) p n k = (fst (rd (slice_buffer data) p n tt), S k).
Proof.
  intros data. split; [intros p n k; cbn; lia|]. split; [|split; [reflexivity|intros p n k; reflexivity] ].
  intros p n k l k' H. cbn [rd counted] in H. unfold counted_rd in H. injection H as H _.
  apply (@good_slice unit data p n tt l tt). cbn [rd slice_buffer]. rewrite <- H.
  destruct (slice_rd data p n tt) as [a []]. reflexivity.
Qed.
Print Assumptions c65_counted.

Definition tidy_types (types : list ty) : bool :=
  forallb (fun t => match t_def t with TVariant [] => negb (str_in (last (t_path t) "") item_names) | _ => true end) types.
Lemma str_in_In x l : In x l -> str_in x l = true.
Proof. intros H. unfold str_in. apply existsb_exists. exists x. split; [exact H|apply String.eqb_refl]. Qed.
(** Types in memory: looking one up reads no data, and one pass over them tells whether some
    enum without variants is named like calls, events or signatures. *)
Theorem c65_types : forall types, tidy_types types = true ->
  lookup_is_free (fun k : nat => k) (portable types) /\ registry_inhabited (@portable nat types) /\ good_registry (@portable nat types).
Proof.
  intros types H. split; [|split; [|apply good_portable] ].
  - intros id k. cbn [resolve portable]. unfold portable_resolve. destruct (lookup types id); cbn; lia.
  - intros id e t e' Hr. cbn [resolve portable] in Hr. unfold portable_resolve in Hr.
    destruct (lookup types id) as [t'|] eqn:Hn; [|discriminate Hr]. injection Hr as -> _. unfold lookup in Hn.
    destruct (_ <? _)%N; [|discriminate Hn].
    unfold tidy_types in H. rewrite forallb_forall in H. specialize (H t (nth_error_In _ _ Hn)).
    intros Hd Hin. rewrite Hd, (str_in_In _ _ Hin) in H. discriminate H.
Qed.
Print Assumptions c65_types.

(** So for every text of bytes and every such registry. *)
Theorem c65_in_memory : forall types data id, tidy_types types = true ->
  forall o k, decode_all_as_type (counted data) (portable types) id 0 = (o, k) ->
  k <= 2 * List.length data + match o with Ok _ => 0 | _ => 19 end.
Proof.
  intros types data id Ht o k H. destruct (c65_counted data) as (H1 & H2 & H3 & _). destruct (c65_types types Ht) as (H4 & H5 & H6).
  pose proof (c65_decode_all nat (fun k => k) (counted data) (portable types) H1 H4 H5 H2 H6 id 0 o k H) as HF. cbv beta in HF. rewrite H3 in HF. exact HF.
Qed.
Print Assumptions c65_in_memory.

(** ** Examples *)
Definition text_only : list ty := [Ty [] [] (TPrimitive PrStr) []].
(** Two reads for the only byte of an empty text: the bound is reached. *)
Example c65_reached : decode_all_as_type (counted [0]%N) (portable text_only) 0 0 = (Ok (Ext (DText [] SsNone) []), 2).
Proof. vm_compute. reflexivity. Qed.

(** A transaction of 75 bytes takes 11 reads. *)
Definition counted_chain : metadata nat string :=
  Metadata nat string (portable chain_types) (ch_spec sample_chain) (ch_call sample_chain) (ch_extensions sample_chain)
    (ch_params sample_chain) (ch_version sample_chain).
Example c65_hypotheses : tidy_types chain_types = true /\ tidy_types sample = true.
Proof. split; vm_compute; reflexivity. Qed.
Example c65_call : exists x, parse_transaction (counted (prefixed the_call ++ mortal_extensions)) counted_chain None 0 0 = (Ok x, 0, 11).
Proof. eexists. vm_compute. reflexivity. Qed.

(** An enum without variants named `Call` is looked at and then decoded from no data at all: a
    vector of them in one byte takes 64 reads. The hypothesis on the types is needed. *)
Definition empty_calls : list ty := [Ty [] [] (TSequence 1) []; Ty ["Call"] [] (TVariant []) []].
Theorem c65_empty_enum : tidy_types empty_calls = false /\
  exists x, decode_all_as_type (counted [252]%N) (portable empty_calls) 0 0 = (Ok x, 64).
Proof. split; [reflexivity|]. eexists. vm_compute. reflexivity. Qed.
Print Assumptions c65_empty_enum.
