(** C60: an error of the decoder is about the place it names.  Only statements; proofs in
    ProofFirm.v, ProofFirm2.v. *)
From Coq Require Import Lia ZifyBool ZifyNat ZifyN.
From Verif Require Import Base Compact Types Indicators Decode Spec Sample Api ProofBase ProofCompact ProofFirm ProofFirm2.
Local Open Scope string_scope.
Local Open Scope list_scope.

(** What each error says about the data is true: *)
Theorem c60_true : forall types data id pos x q, is_bytes data -> (pos <= List.length data)%nat ->
  decode_at types data id pos = (Err x, q) ->
  (pos <= q <= List.length data)%nat /\
  match x with
  (* of the metadata *)
  | PRegistry (RInternal _) => True
  (* there is a byte *)
  | UnexpectedEnumVariant at_p => (pos <= at_p < List.length data)%nat
  | TypeFailure at_p _ => (pos <= at_p < List.length data)%nat
  (* there are not so many bytes *)
  | PBuffer (DataTooShort at_p n) => (pos <= at_p <= List.length data)%nat /\
      (N.of_nat (List.length data) < N.of_nat at_p + n)%N
  (* there is no compact number of the type asked for *)
  | NoCompact at_p => (pos <= at_p <= List.length data)%nat /\
      exists w, forall v rest, fits w v = true -> skipn at_p data <> compact_enc v ++ rest
  (* never: data out of range, external memory, unused data *)
  | _ => False
  end.
Proof. exact error_true. Qed.
Print Assumptions c60_true.

(** An unexpected variant index is decided by the bytes up to and including it. *)
Theorem c60_enum : forall types data data' id pos at_p q, is_bytes data -> is_bytes data' -> (pos <= List.length data)%nat ->
  decode_at types data id pos = (Err (UnexpectedEnumVariant at_p), q) ->
  firstn (at_p + 1) data' = firstn (at_p + 1) data ->
  fst (decode_at types data' id pos) = Err (UnexpectedEnumVariant at_p).
Proof. exact enum_decided. Qed.
Print Assumptions c60_enum.

(** A problem of the metadata is decided by the bytes consumed. *)
Theorem c60_registry : forall types data data' id pos y q, is_bytes data -> is_bytes data' -> (pos <= List.length data)%nat ->
  decode_at types data id pos = (Err (PRegistry y), q) ->
  firstn q data' = firstn q data ->
  fst (decode_at types data' id pos) = Err (PRegistry y).
Proof. exact registry_decided. Qed.
Print Assumptions c60_registry.

(** A value that cannot be decoded is not cured by more data. *)
Theorem c60_value : forall types data more id pos at_p name q, is_bytes data -> is_bytes more -> (pos <= List.length data)%nat ->
  decode_at types data id pos = (Err (TypeFailure at_p name), q) ->
  fst (decode_at types (data ++ more) id pos) = Err (TypeFailure at_p name).
Proof. exact value_decided. Qed.
Print Assumptions c60_value.

(** Data reported too short stay so until there are as many as asked for. *)
Theorem c60_short : forall types data more id pos at_p n q, is_bytes data -> is_bytes more -> (pos <= List.length data)%nat ->
  decode_at types data id pos = (Err (PBuffer (DataTooShort at_p n)), q) ->
  (N.of_nat (List.length (data ++ more)) < N.of_nat at_p + n)%N ->
  fst (decode_at types (data ++ more) id pos) = Err (PBuffer (DataTooShort at_p n)).
Proof. exact short_decided. Qed.
Print Assumptions c60_short.

(** A missing compact is decided by 17 bytes. *)
Theorem c60_compact : forall types data data' id pos at_p q, is_bytes data -> is_bytes data' -> (pos <= List.length data)%nat ->
  decode_at types data id pos = (Err (NoCompact at_p), q) ->
  (at_p + 17 <= List.length data)%nat -> firstn (at_p + 17) data' = firstn (at_p + 17) data ->
  fst (decode_at types data' id pos) = Err (NoCompact at_p).
Proof. exact compact_decided. Qed.
Print Assumptions c60_compact.

(** So data that were cut are reported as such: too short, or no compact number in their last 16
    bytes. *)
Theorem c60_cut : forall types data more id pos x q, is_bytes (data ++ more) -> (pos <= List.length data)%nat ->
  decode_at types (data ++ more) id pos = (Ok x, q) -> (List.length data < q)%nat ->
  exists y q', decode_at types data id pos = (Err y, q') /\
    ((exists at_p n, y = PBuffer (DataTooShort at_p n) /\ (N.of_nat (List.length data) < N.of_nat at_p + n <= N.of_nat q)%N) \/
     exists at_p, y = NoCompact at_p /\ (at_p <= List.length data < at_p + 17)%nat).
Proof. exact cut_reported. Qed.
Print Assumptions c60_cut.

(** Each kind of error: a variant 9 of Option, a string that is not UTF-8, the second byte of a
    long compact missing, four bytes of a number missing, a type that contains itself. *)
Example c60_cases :
  decode_at sample [5; 9; 8; 7]%N 7 1 = (Err (UnexpectedEnumVariant 1), 1%nat) /\
  decode_at sample [5; 8; 255; 255; 1]%N 5 1 = (Err (TypeFailure 1 "str"), 1%nat) /\
  decode_at sample [5; 1]%N 4 1 = (Err (NoCompact 1), 1%nat) /\
  decode_at sample [5; 1; 7; 7]%N 7 1 = (Err (PBuffer (DataTooShort 2 4)), 2%nat) /\
  decode_at sample [5; 1; 7; 7]%N 14 1 = (Err (PRegistry (RInternal (CyclicMetadata 14))), 1%nat).
Proof. vm_compute. repeat split. Qed.

Example c60_cut_case : exists x, decode_at sample ([5] ++ sample_bytes)%N 10 1 = (Ok x, 35%nat) /\
  decode_at sample (firstn 14 ([5] ++ sample_bytes))%N 10 1 = (Err (NoCompact 6), 6%nat) /\
  decode_at sample (firstn 26 ([5] ++ sample_bytes))%N 10 1 = (Err (PBuffer (DataTooShort 21 7)), 20%nat).
Proof. eexists. vm_compute. repeat split. Qed.
