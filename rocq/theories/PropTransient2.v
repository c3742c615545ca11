(** C66: transactions, unchecked extrinsics and storage entries read from memory with
    transient faults.  Only statements; proofs in ProofTransient2.v, specification in
    SpecTransient.v and SpecTransient2.v. *)
From Coq Require Import Lia.
From Verif Require Import Base Compact Types Indicators Decode Sign Unchecked Storage Spec SpecTrack SpecTransient SpecTransient2 SpecSource
  Api ApiSign ApiStorage ProofSafe2 ProofTransient ProofTransient2 PropTransient SampleChain PropHoles PropStorage PropUnchecked.
Local Open Scope string_scope.
Local Open Scope list_scope.

(** The metadata of a chain whose types are in external memory. *)
Definition chain_over {E ME} (c : ApiSign.chain ME) (r : registry E) : metadata E ME :=
  Metadata E ME r (ch_spec c) (ch_call c) (ch_extensions c) (ch_params c) (ch_version c).

(** What being the same call means: the same pallet, variant, documentation and fields, and
    the same reading of every field. *)
Theorem c66_same_call : forall c c0, same_call c c0 ->
  ps_info c = ps_info c0 /\ ps_variant_docs c = ps_variant_docs c0 /\
  ps_pallet_name c = ps_pallet_name c0 /\ ps_variant_name c = ps_variant_name c0 /\
  Forall2 (fun f f0 => fd_name f = fd_name f0 /\ fd_type_name f = fd_type_name f0 /\ fd_docs f = fd_docs f0 /\
    same_reading (fd_data f) (fd_data f0)) (ps_fields c) (ps_fields c0).
Proof. exact same_call_parts. Qed.
Print Assumptions c66_same_call.

(** [decode_all_as_type]. *)
Theorem c66_decode_all : forall E (b : buffer E) r types data id e o e',
  flaky_copy b data -> flaky_registry r types -> plain_signatures types -> pallets_have_items types ->
  decode_all_as_type b r id e = (o, e') ->
  (exists x, o = Err x /\ pext x) \/
  match o, decode_all types data id with
  | Ok x, Ok x0 => same_reading x x0
  | Err _, Err _ => True
  | _, _ => False
  end.
Proof.
  intros E b r types data id e o e' Hb Hr Hsig Hit H.
  pose proof (simz_all_body r types Hr Hsig Hit b data Hb id 0%nat e) as Hs. unfold decode_all_as_type in H. unfold decode_all, decode_all_as_type.
  destruct (decode_all_body b r id 0 e) as [[o1 q1] e1]. injection H as -> <-.
  destruct (decode_all_body (slice_buffer data) (portable types) id 0 tt) as [[o2 q2] e2]. cbn [fst].
  destruct o as [x|x| |].
  - destruct Hs as (x0 & -> & [H1 _] & _). right. exact H1.
  - destruct Hs as [Hs|(y & -> & Hs)]; [left; eauto|right; exact Hs].
  - destruct Hs.
  - destruct Hs.
Qed.
Print Assumptions c66_decode_all.

(** Transactions: whatever accesses fail, the outcome is one of the two errors a fault gives,
    or the same refusal as without faults, or the extensions without faults; the call is then
    the same, or an error: never a call where there is none, never another call. *)
Theorem c66_transaction : forall E ME (c : ApiSign.chain ME) (b : buffer E) r data g e o q e',
  flaky_copy b data -> flaky_registry r (ch_types c) -> plain_signatures (ch_types c) -> pallets_have_items (ch_types c) ->
  parse_transaction b (chain_over c r) g 0 e = (o, q, e') ->
  (exists x, o = Err x /\ sign_fault x) \/
  match o, transaction c g data with
  | Ok t, Ok t0 => Forall2 same_reading (tp_extensions t) (tp_extensions t0) /\ call_told (tp_call t) (tp_call t0)
  | Err x, Err y => sign_told x y
  | _, _ => False
  end.
Proof.
  intros E ME c b r data g e o q e' Hb Hr Hsig Hit H.
  pose proof (simz_transaction r (ch_types c) Hr Hsig Hit c eq_refl sign_told (Forall2 same_reading) b data g sign_told_refl Hb
    (simz_exts_unmarked r (ch_types c) Hr Hsig Hit c eq_refl b data g Hb) 0%nat e) as Hs.
  pose proof (transaction_runs (slice_buffer data) (chain_metadata c) (good_slice data) (good_portable _) g 0 tt) as R2.
  change (flaky_meta r c) with (chain_over c r) in Hs. rewrite H in Hs. unfold transaction, result.
  destruct (parse_transaction (slice_buffer data) (chain_metadata c) g 0 tt) as [[o2 q2] e2]. cbn [fst].
  destruct o as [t|x| |].
  - destruct Hs as (t0 & -> & [H1 H2] & _). right. auto.
  - destruct Hs as [Hs|(y & -> & Hs)]; [left; eauto|right; exact Hs].
  - destruct Hs.
  - destruct Hs.
Qed.
Print Assumptions c66_transaction.

(** If no call, event or multi-signature type occurs in the extensions, they are exactly the
    same, and so is every refusal that no fault gave. *)
Theorem c66_exact_extensions : forall E ME (c : ApiSign.chain ME) (b : buffer E) r data g S e o q e',
  flaky_copy b data -> flaky_registry r (ch_types c) -> plain_signatures (ch_types c) -> pallets_have_items (ch_types c) ->
  unrecognised (ch_types c) S ->
  (forall l m, ch_extensions c = inl l -> In m l -> S (em_ty m) /\ S (em_additional m)) ->
  parse_transaction b (chain_over c r) g 0 e = (o, q, e') ->
  (exists x, o = Err x /\ sign_fault x) \/
  match o, transaction c g data with
  | Ok t, Ok t0 => tp_extensions t = tp_extensions t0 /\ call_told (tp_call t) (tp_call t0)
  | Err x, Err y => x = y
  | _, _ => False
  end.
Proof.
  intros E ME c b r data g S e o q e' Hb Hr Hsig Hit HS Hl H.
  assert (Hl' : forall l, ch_extensions c = inl l -> Forall (fun x => S (snd x)) (extension_types l)).
  { intros l Hc. unfold extension_types. apply Forall_app. split; apply Forall_map, Forall_forall; intros m Hm; apply (Hl l m Hc Hm). }
  pose proof (simz_transaction r (ch_types c) Hr Hsig Hit c eq_refl eq eq b data g (fun x => eq_refl) Hb
    (simz_exts_unmarked_exact r (ch_types c) Hr c eq_refl b data g S Hb HS Hl') 0%nat e) as Hs.
  change (flaky_meta r c) with (chain_over c r) in Hs. rewrite H in Hs. unfold transaction, result.
  destruct (parse_transaction (slice_buffer data) (chain_metadata c) g 0 tt) as [[o2 q2] e2]. cbn [fst].
  destruct o as [t|x| |].
  - destruct Hs as (t0 & -> & [H1 H2] & _). right. auto.
  - destruct Hs as [Hs|(y & -> & Hs)]; [left; eauto|right; exact Hs].
  - destruct Hs.
  - destruct Hs.
Qed.
Print Assumptions c66_exact_extensions.

(** Transactions without a length mark. *)
Theorem c66_unmarked : forall E ME (c : ApiSign.chain ME) (b : buffer E) r data g e o q e',
  flaky_copy b data -> flaky_registry r (ch_types c) -> plain_signatures (ch_types c) -> pallets_have_items (ch_types c) ->
  parse_transaction_unmarked b (chain_over c r) g 0 e = (o, q, e') ->
  (exists x, o = Err x /\ call_fault x) \/
  match o, transaction_unmarked c g data with
  | Ok (call, xs), Ok (call0, xs0) => same_call call call0 /\ Forall2 same_reading xs xs0
  | Err x, Err y => sign_told x y
  | _, _ => False
  end.
Proof.
  intros E ME c b r data g e o q e' Hb Hr Hsig Hit H.
  assert (Ht2 : forall x y, @sign_told ME (Parsing x) (Parsing y)) by (intros x y; right; eauto).
  pose proof (simz_unmarked r (ch_types c) Hr Hsig Hit c eq_refl sign_told (Forall2 same_reading) b data g sign_told_refl Ht2 Hb
    (simz_exts_unmarked r (ch_types c) Hr Hsig Hit c eq_refl b data g Hb) 0%nat e) as Hs.
  change (flaky_meta r c) with (chain_over c r) in Hs. rewrite H in Hs. unfold transaction_unmarked, result.
  destruct (parse_transaction_unmarked (slice_buffer data) (chain_metadata c) g 0 tt) as [[o2 q2] e2]. cbn [fst].
  destruct o as [[call xs]|x| |].
  - destruct Hs as ([call0 xs0] & -> & [H1 H2] & _). right. auto.
  - destruct Hs as [Hs|(y & -> & Hs)]; [left; eauto|right; exact Hs].
  - destruct Hs.
  - destruct Hs.
Qed.
Print Assumptions c66_unmarked.

(** Unchecked extrinsics. *)
Theorem c66_unchecked : forall E ME (c : ApiSign.chain ME) (b : buffer E) r data e o q e',
  flaky_copy b data -> flaky_registry r (ch_types c) -> plain_signatures (ch_types c) -> pallets_have_items (ch_types c) ->
  decode_as_unchecked_extrinsic b (chain_over c r) 0 e = (o, q, e') ->
  (exists x, o = Err x /\ unchecked_fault x) \/
  match o, result (decode_as_unchecked_extrinsic (slice_buffer data) (chain_metadata c)) with
  | Ok u, Ok u0 => same_unchecked u u0
  | Err x, Err y => unchecked_told x y
  | _, _ => False
  end.
Proof.
  intros E ME c b r data e o q e' Hb Hr Hsig Hit H.
  pose proof (simz_unchecked r (ch_types c) Hr Hsig Hit c eq_refl b data Hb 0%nat e) as Hs.
  change (flaky_meta r c) with (chain_over c r) in Hs. rewrite H in Hs. unfold result.
  destruct (decode_as_unchecked_extrinsic (slice_buffer data) (chain_metadata c) 0 tt) as [[o2 q2] e2]. cbn [fst].
  destruct o as [u|x| |].
  - destruct Hs as (u0 & -> & H1 & _). right. auto.
  - destruct Hs as [Hs|(y & -> & Hs)]; [left; eauto|right; exact Hs].
  - destruct Hs.
  - destruct Hs.
Qed.
Print Assumptions c66_unchecked.

(** Storage entries.  Parsing may panic (c53_transient_panic), but only if an access to the
    key failed. *)
Theorem c66_storage : forall E (blake2_128 twox_64 : bytes -> bytes) (k v : buffer E) key value r types entry e o q e',
  flaky_copy k key -> flaky_copy v value -> flaky_registry r types -> plain_signatures types -> pallets_have_items types ->
  decode_as_storage_entry blake2_128 twox_64 k v entry r 0 e = (o, q, e') ->
  (exists x, o = Err x /\ storage_fault x) \/
  (o = Panic /\ exists p n f x f', rd k p n f = (inr (BExternal x), f')) \/
  match o, storage_entry blake2_128 twox_64 types key value entry with
  | Ok s, Ok s0 => same_entry s s0
  | Err x, Err y => storage_told x y
  | _, _ => False
  end.
Proof.
  intros E bl tw k v key value r types entry e o q e' Hk Hv Hr Hsig Hit H.
  pose proof (simz_storage r types Hr Hsig Hit bl tw k v key value Hk Hv entry 0%nat e) as Hs.
  rewrite H in Hs. unfold storage_entry.
  destruct (decode_as_storage_entry bl tw (slice_buffer key) (slice_buffer value) entry (portable types) 0 tt) as [[o2 q2] e2]. cbn [fst].
  destruct o as [s|x| |].
  - destruct Hs as (s0 & -> & H1 & _). right. right. auto.
  - destruct Hs as [Hs|(y & -> & Hs)]; [left; eauto|right; right; exact Hs].
  - right. left. auto.
  - destruct Hs.
Qed.
Print Assumptions c66_storage.

(** ** Examples *)

(** The hypotheses hold for the sample chain, with [the_call] marked. *)
Definition tx_run (kd kt : nat) :=
  fst (fst (parse_transaction (fails_once (prefixed the_call ++ mortal_extensions) kd)
    (chain_over sample_chain (types_fail_once chain_types kt)) (Some genesis) 0 0%nat)).
Definition call_run (kd kt : nat) : option (psdata pdata + signable_err string) :=
  match tx_run kd kt with Ok t => Some (tp_call t) | _ => None end.
Definition ux_run (kd kt : nat) := fst (fst (decode_as_unchecked_extrinsic (fails_once (frame signed_content) kd)
  (chain_over sample_chain (types_fail_once chain_types kt)) 0 0%nat)).

Example c66_hypotheses : forall kd kt, flaky_copy (fails_once (prefixed the_call ++ mortal_extensions) kd) (prefixed the_call ++ mortal_extensions) /\
  flaky_registry (types_fail_once (ch_types sample_chain) kt) (ch_types sample_chain) /\
  plain_signatures (ch_types sample_chain) /\ pallets_have_items (ch_types sample_chain).
Proof. intros kd kt. split; [apply fails_once_flaky|]. split; [apply types_fail_once_flaky|apply chain_plain]. Qed.

(** The extensions have no types that are recognised. *)
Definition extension_ids : list N := [0; 1; 2; 3; 4; 10; 11; 12]%N.
Example c66_exact_hypotheses :
  unrecognised (ch_types sample_chain) (fun id => In id extension_ids) /\
  (forall l m, ch_extensions sample_chain = inl l -> In m l ->
    In (em_ty m) extension_ids /\ In (em_additional m) extension_ids).
Proof.
  split.
  - intros id t Hid Hl. unfold extension_ids in *.
    repeat (destruct Hid as [<-|Hid]; [vm_compute in Hl; injection Hl as <-; split; [intros j Hj; cbn in Hj; cbn|exact I]|]).
    all: try (destruct Hj as (f & [<-|[] ] & <-); cbn; tauto).
    all: try (destruct Hj as (v & f & [] & _)).
    all: try (destruct Hj as (f & [] & _)).
    all: try (subst; tauto). all: try tauto. all: destruct Hid.
  - intros l m Hc Hm. injection Hc as <-. cbn in Hm. repeat (destruct Hm as [<-|Hm]; [cbn; tauto|]). destruct Hm.
Qed.

Example c66_example :
  (* no access fails; the mark cannot be read; an extension cannot; the amount cannot *)
  call_run 99 99 = Some (inl call_data) /\
  tx_run 0 99 = Err CutSignable /\
  tx_run 6 99 = Err (Parsing (PBuffer (BExternal 7))) /\
  call_run 20 99 = Some (inr (Parsing (PBuffer (BExternal 7)))) /\
  (* a type of an extension, a type of the call *)
  tx_run 99 2 = Err (Parsing (PRegistry (RExternal 8))) /\ call_run 99 18 = Some (inr (Parsing (PRegistry (RExternal 8)))) /\
  ux_run 99 99 = Ok signed_shown /\
  ux_run 1 99 = Err FormatNoCompact /\
  ux_run 4 99 = Err (UParsing (PBuffer (BExternal 7))).
Proof. vm_compute. repeat split. Qed.

(** A fault while the pallet is looked at, in the data or in its type: the call is said not to
    be one. *)
Theorem c66_not_recognised :
  (exists id, call_run 15 99 = Some (inr (NotACall id)) /\ call_run 99 16 = Some (inr (NotACall id))) /\
  (exists id, ux_run 9 99 = Err (UnexpectedCallTy id) /\ ux_run 99 10 = Err (UnexpectedCallTy id)).
Proof. split; eexists; vm_compute; split; reflexivity. Qed.
Print Assumptions c66_not_recognised.

(** Storage: the hypotheses hold for the sample; a panic is shown in c53_transient_panic. *)
Definition st_run (k v : nat) := fst (fst (decode_as_storage_entry (fake 16) (fake 8)
  (fails_once tuple_key k) (fails_once [9; 0; 0; 0]%N v) tuple_entry
  (portable storage_types) 0 0%nat)).
Example c66_storage_example :
  plain_signatures storage_types /\ pallets_have_items storage_types /\
  st_run 99 99 = stored tuple_key [9; 0; 0; 0]%N tuple_entry /\
  st_run 0 99 = Err (ParsingKey (PBuffer (BExternal 7))) /\
  st_run 2 99 = Panic /\
  (exists v, st_run 99 v = Err (ParsingValue (PBuffer (BExternal 7)))).
Proof.
  split; [apply signature_check_ok; vm_compute; reflexivity|]. split; [apply items_check_ok; vm_compute; reflexivity|].
  split; [vm_compute; reflexivity|]. split; [vm_compute; reflexivity|]. split; [vm_compute; reflexivity|].
  exists 5%nat. vm_compute. reflexivity.
Qed.
