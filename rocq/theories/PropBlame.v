(** C61: what an error of the decoder accuses.  Only statements; proofs in ProofBlame.v. *)
From Coq Require Import Lia ZifyBool ZifyNat ZifyN Relations.
From Verif Require Import Base Compact Types Indicators Decode Spec SpecReach SpecKinds SpecHusk SpecBlame Sample Api ProofBase ProofCompact ProofBlame PropDecode.
Local Open Scope string_scope.
Local Open Scope list_scope.

(** Every error names a place, a number of bytes, a kind of value or a type such that some type
    needed for the value asked for, and the data at this place, cannot go together; or such that
    the metadata cannot be used for this type ([accuses] in SpecBlame.v). *)
Theorem c61_accuses : forall types data id pos x q, is_bytes data -> (pos <= List.length data)%nat ->
  decode_at types data id pos = (Err x, q) -> accuses types data id pos x.
Proof. exact decode_accuses. Qed.
Print Assumptions c61_accuses.

(** Decoding everything: the same, or the data go on after the value. *)
Theorem c61_accuses_all : forall types data id x, is_bytes data -> decode_all types data id = Err x ->
  accuses types data id 0 x \/
  exists y from, decode_at types data id 0 = (Ok y, from) /\ (from < List.length data)%nat /\ x = SomeDataNotUsedBlob from.
Proof. exact decode_all_accuses. Qed.
Print Assumptions c61_accuses_all.

(** So the registry is not accused of a missing type, of a cycle, of a bad compact or of a bad
    bit sequence, unless it has one. *)
Theorem c61_registry_innocent : forall types data id pos x q, is_bytes data -> (pos <= List.length data)%nat ->
  (forall i, needed types id i -> exists t, lookup types i = Some t /\
     ~ clos_trans N (contains types) i i /\
     (forall inner, def_of t = Some (TCompact inner) -> compactable types inner) /\
     (forall store order, def_of t = Some (TBitSequence store order) -> bit_store types store <> None /\ bit_order_of types order <> None)) ->
  decode_at types data id pos = (Err x, q) ->
  match x with
  | UnexpectedEnumVariant _ | TypeFailure _ _ | NoCompact _ | PBuffer (DataTooShort _ _) => True
  | _ => False
  end.
Proof. exact registry_innocent. Qed.
Print Assumptions c61_registry_innocent.

(** Each kind of error, with types for the errors of the metadata: a compact of a string, a bit
    sequence stored in u128, one without order, a type that is missing. *)
Definition bad_types : list ty := sample ++
  [ (* 15 *) Ty [] [] (TCompact 5) [];
    (* 16 *) Ty [] [] (TBitSequence 3 12) [];
    (* 17 *) Ty [] [] (TBitSequence 1 6) [];
    (* 18 *) Ty [] [] (TTuple [1; 99]%N) [];
    (* 19 *) Ty [] [] (TPrimitive PrBool) [];
    (* 20 *) Ty [] [] (TTuple [1; 19]%N) [];
    (* 21 *) Ty ["sp_arithmetic"; "per_things"; "Percent"] [] (TComposite [Field None 1 None []]) [] ].

Example c61_cases :
  decode_at bad_types [5; 9; 8; 7]%N 7 1 = (Err (UnexpectedEnumVariant 1), 1%nat) /\
  decode_at bad_types [5; 8; 255; 255; 1]%N 5 1 = (Err (TypeFailure 1 "str"), 1%nat) /\
  decode_at bad_types [5; 7; 2]%N 20 1 = (Err (TypeFailure 2 "bool"), 2%nat) /\
  decode_at bad_types [5; 101]%N 21 1 = (Err (TypeFailure 1 "Percent"), 1%nat) /\
  decode_at bad_types [5; 3; 255; 255; 255; 255]%N 13 1 = (Err (PBuffer (DataTooShort 1 536870917)), 1%nat) /\
  decode_at bad_types [5; 1]%N 4 1 = (Err (NoCompact 1), 1%nat) /\
  decode_at bad_types [5; 1; 7; 7]%N 7 1 = (Err (PBuffer (DataTooShort 2 4)), 2%nat) /\
  decode_at bad_types [5; 1; 7; 7]%N 14 1 = (Err (PRegistry (RInternal (CyclicMetadata 14))), 1%nat) /\
  decode_at bad_types [5; 4; 65]%N 15 1 = (Err (PRegistry (RInternal (UnexpectedCompactInsides 15))), 1%nat) /\
  decode_at bad_types [5; 4; 65]%N 16 1 = (Err (PRegistry (RInternal (NotBitStoreType 16))), 1%nat) /\
  decode_at bad_types [5; 4; 65]%N 17 1 = (Err (PRegistry (RInternal (NotBitOrderType 17))), 1%nat) /\
  decode_at bad_types [5; 4; 65]%N 18 1 = (Err (PRegistry (RInternal (TypeNotResolved 99))), 2%nat).
Proof. vm_compute. repeat split. Qed.

(** The accusation is not empty: of a pair of a byte and a bool, with the bool wrong, the byte
    cannot be accused, and nothing else than a bool. *)
Lemma pair_needs i : needed bad_types 20 i -> i = 20%N \/ i = 1%N \/ i = 19%N.
Proof.
  induction 1 as [|i t j Hn IH Hl Hj]; [auto|]. destruct IH as [-> | [-> | ->] ]; vm_compute in Hl; injection Hl as <-; cbn in Hj; intuition auto.
Qed.

Example c61_not_otherwise :
  accuses bad_types [5; 7; 2]%N 20 1 (TypeFailure 2 "bool") /\
  ~ accuses bad_types [5; 7; 2]%N 20 1 (UnexpectedEnumVariant 2) /\
  ~ accuses bad_types [5; 7; 2]%N 20 1 (TypeFailure 0 "bool") /\
  ~ accuses bad_types [5; 7; 2]%N 20 1 (TypeFailure 2 "char") /\
  ~ accuses bad_types [5; 7; 2]%N 20 1 (PBuffer (DataTooShort 2 1)) /\
  ~ accuses bad_types [5; 7; 2]%N 20 1 (PRegistry (RInternal (TypeNotResolved 99))).
Proof.
  split.
  - apply (c61_accuses bad_types [5; 7; 2]%N 20 1 (TypeFailure 2 "bool") 2); [unfold is_bytes; repeat (apply Forall_cons; [reflexivity|]); apply Forall_nil|cbn; lia|vm_compute; reflexivity].
  - repeat split; intros H; inversion H; subst;
    repeat match goal with Hn : needed bad_types 20 _ |- _ => apply pair_needs in Hn; destruct Hn as [-> | [-> | ->] ] end;
    match goal with
    | Hl : lookup _ _ = Some ?t |- _ => vm_compute in Hl; injection Hl as <-
    | Hl : lookup _ _ = None |- _ => vm_compute in Hl; discriminate Hl
    | _ => idtac
    end; try discriminate; try lia;
    try match goal with Hw : wrong _ _ _ _ |- _ => inversion Hw; discriminate end.
    all: cbn in *; try lia; match goal with Hn : needed _ _ _ |- _ => apply pair_needs in Hn; lia end.
Qed.

(** A well-formed part of the registry is innocent. *)
Example c61_innocent_case : (forall i, needed bad_types 20 i -> exists t, lookup bad_types i = Some t /\
     ~ clos_trans N (contains bad_types) i i /\
     (forall inner, def_of t = Some (TCompact inner) -> compactable bad_types inner) /\
     (forall store order, def_of t = Some (TBitSequence store order) -> bit_store bad_types store <> None /\ bit_order_of bad_types order <> None)) /\
  fst (decode_at bad_types [5; 7; 2]%N 20 1) = Err (TypeFailure 2 "bool").
Proof.
  split; [|vm_compute; reflexivity]. intros i Hi. apply pair_needs in Hi.
  assert (Hstep : forall j k, j = 20%N \/ j = 1%N \/ j = 19%N -> contains bad_types j k -> j = 20%N /\ (k = 1%N \/ k = 19%N)).
  { intros j k [-> | [-> | ->] ] (t & Hl & Hc); vm_compute in Hl; injection Hl as <-; cbn in Hc; try contradiction. intuition auto. }
  assert (Hacyc : forall j, j = 20%N \/ j = 1%N \/ j = 19%N -> ~ clos_trans N (contains bad_types) j j).
  { intros j Hj Hc. apply clos_trans_t1n in Hc. inversion Hc as [k H1|k z H1 H2]; subst; destruct (Hstep _ _ Hj H1) as [-> Hk]; [lia|].
    inversion H2; subst; match goal with H : contains _ k _ |- _ => destruct (Hstep _ _ (or_intror Hk) H); lia end. }
  exists (match lookup bad_types i with Some t => t | None => Ty [] [] (TTuple []) [] end).
  destruct Hi as [-> | [-> | ->] ]; (split; [vm_compute; reflexivity|]); (split; [apply Hacyc; auto|]); split; intros *; cbn; discriminate.
Qed.
