(** C41: external memory with persistent faults.  Only statements; proofs in ProofTrack.v,
    ProofIso.v and ProofExternal.v, specification in SpecTrack.v. *)
From Verif Require Import Base Compact Types Indicators Decode Sign Spec SpecTrack Api ApiSign ProofIso ProofExternal Sample SampleChain.
Local Open Scope string_scope.
Local Open Scope list_scope.

(** C41: the result is the one for the same content in memory, or an external memory error. *)
Theorem c41_external_or_same : forall E (b : buffer E) r types data id pos e o q e',
  faulty_copy b data -> faulty_registry r types -> straight_signatures types ->
  decode_as_type_at_position b r id pos e = (o, q, e') ->
  (exists x, o = Err x /\ pext x) \/
  match o with
  | Ok x => decode_at types data id pos = (Ok x, q)
  | _ => exists q', decode_at types data id pos = (o, q')
  end.
Proof. intros E. exact external_or_same. Qed.
Print Assumptions c41_external_or_same.

Theorem c41_external_or_same_all : forall E (b : buffer E) r types data id e o e',
  faulty_copy b data -> faulty_registry r types -> straight_signatures types ->
  decode_all_as_type b r id e = (o, e') ->
  (exists x, o = Err x /\ pext x) \/ decode_all types data id = o.
Proof. intros E. exact external_or_same_all. Qed.
Print Assumptions c41_external_or_same_all.

(** Transactions.  A fault while the length of the call is read or checked is reported as
    cut data; a fault inside the call leaves the extensions intact. *)
Theorem c41_transaction : forall E ME (c : chain ME) (b : buffer E) r data g e o q e',
  faulty_copy b data -> faulty_registry r (ch_types c) -> straight_signatures (ch_types c) ->
  parse_transaction b (Metadata E ME r (ch_spec c) (ch_call c) (ch_extensions c) (ch_params c) (ch_version c)) g 0 e = (o, q, e') ->
  (exists x, o = Err x /\ (x = CutSignable \/ exists y, x = Parsing y /\ pext y)) \/
  match o, transaction c g data with
  | Ok t1, Ok t2 => tp_extensions t1 = tp_extensions t2 /\
      (tp_call t1 = tp_call t2 \/ exists y, tp_call t1 = inr (Parsing y) /\ pext y)
  | Err x, Err y => x = y
  | _, _ => False
  end.
Proof. intros E ME c b r data g e o q e' Hb Hr Hs. exact (external_transaction c r Hr Hs b data g e o q e' Hb). Qed.
Print Assumptions c41_transaction.

Theorem c41_unmarked : forall E ME (c : chain ME) (b : buffer E) r data g e o q e',
  faulty_copy b data -> faulty_registry r (ch_types c) -> straight_signatures (ch_types c) ->
  parse_transaction_unmarked b (Metadata E ME r (ch_spec c) (ch_call c) (ch_extensions c) (ch_params c) (ch_version c)) g 0 e = (o, q, e') ->
  (exists x, o = Err x /\ (x = CutSignable \/ exists y, x = Parsing y /\ pext y)) \/ o = transaction_unmarked c g data.
Proof. intros E ME c b r data g e o q e' Hb Hr Hs. exact (external_unmarked c r Hr Hs b data g e o q e' Hb). Qed.
Print Assumptions c41_unmarked.

(** A memory with one unreadable address, counting the accesses. *)
Definition hole_buffer (data : bytes) (hole : nat) : buffer nat :=
  Buffer nat (List.length data) (fun p n e =>
    (if Nat.leb p hole && (N.of_nat hole <? N.of_nat p + n)%N then inr (BExternal 7) else fst (slice_rd data p n tt), S e)).
Definition hole_registry (types : list ty) (hole : N) : registry nat :=
  Registry nat (List.length types) (fun id e =>
    (if (id =? hole)%N then inr (RExternal 8) else fst (portable_resolve types id tt), S e)).

Lemma hole_copy data hole : faulty_copy (hole_buffer data hole) data.
Proof.
  split; [reflexivity|]. intros p n. cbn [rd hole_buffer].
  destruct (Nat.leb p hole && _); [right|left]; intros e; [exists 7%N|]; reflexivity.
Qed.
Lemma hole_types types hole : faulty_registry (hole_registry types hole) types.
Proof.
  split; [reflexivity|]. intros id. cbn [resolve hole_registry].
  destruct (id =? hole)%N; [right|left]; intros e; [exists 8%N|]; reflexivity.
Qed.

(** A bare signature inside a `MultiSignature`: its type is [s]. *)
Definition with_signature (s : ty) : list ty :=
  [ (* 0 *) Ty [] [] (TPrimitive (PrU U8)) [];
    (* 1 *) s;
    (* 2 *) Ty ["sp_runtime"; "MultiSignature"] [] (TVariant
              [Variant "Ed25519" [Field None 1 (Some "ed25519::Signature") []] 0 []]) [] ].
Definition plain_signature : list ty := with_signature (Ty [] [] (TArray 64 0) []).

Lemma plain_straight : straight_signatures plain_signature.
Proof.
  intros id t vs v f s Hl Hd Hv Hf Hs. unfold lookup in Hl. destruct (id <? _)%N eqn:Hi; [|discriminate].
  assert (Hid : (id = 0 \/ id = 1 \/ id = 2)%N).
  { apply N.ltb_lt in Hi. change (N.of_nat (List.length plain_signature)) with 3%N in Hi.
    destruct id as [|[[]|[]|]]; auto; discriminate Hi. }
  destruct Hid as [-> |[-> | ->] ]; cbn in Hl; injection Hl as <-; try discriminate Hd.
  injection Hd as <-. destruct Hv as [<-|[]]. injection Hf as <-. exists [], 0%N. cbn [f_ty].
  apply st_array with (t := Ty [] [] (TArray 64 0) []) (n := 64%N); reflexivity.
Qed.

Example c41_example :
  (* an address that is not read *)
  fst (fst (decode_as_type_at_position (hole_buffer (0 :: repeat 9 64)%N 70) (portable plain_signature) 2 0 0))
    = Ok (Ext (DFixed KSigEd25519 (repeat 9 64)%N) [Info "" ["sp_runtime"; "MultiSignature"]]) /\
  fst (decode_at plain_signature (0 :: repeat 9 64)%N 2 0)
    = Ok (Ext (DFixed KSigEd25519 (repeat 9 64)%N) [Info "" ["sp_runtime"; "MultiSignature"]]) /\
  (* one that is *)
  fst (fst (decode_as_type_at_position (hole_buffer (0 :: repeat 9 64)%N 50) (portable plain_signature) 2 0 0))
    = Err (PBuffer (BExternal 7)) /\
  fst (fst (decode_as_type_at_position (hole_buffer (0 :: repeat 9 64)%N 70) (hole_registry plain_signature 0) 2 0 0))
    = Err (PRegistry (RExternal 8)) /\
  fst (fst (decode_as_type_at_position (hole_buffer sample_bytes 30) (portable sample_wf) 10 0 0))
    = Err (PBuffer (BExternal 7)).
Proof. vm_compute. auto. Qed.

(** The restriction to registries with [straight_signatures] is necessary: if the array is
    itself recognised by its path, and its element type is unreadable, the fault goes
    unnoticed and the data is shown differently. *)
Definition named_signature : list ty := with_signature (Ty ["H512"] [] (TArray 64 0) []).

Theorem c41_unnoticed_fault :
  exists x y q, x <> y /\
  decode_at named_signature (0 :: repeat 9 64)%N 2 0 = (Ok x, q) /\
  fst (decode_as_type_at_position (slice_buffer (0 :: repeat 9 64)%N) (hole_registry named_signature 0) 2 0 0%nat) = (Ok y, q).
Proof.
  eexists _, _, _. split; [|split; [vm_compute; reflexivity|vm_compute; reflexivity]]. discriminate.
Qed.
Print Assumptions c41_unnoticed_fault.
