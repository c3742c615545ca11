(** C12, C13: labels and documentation do not influence decoding.  Only statements; proofs
    in ProofHint.v, ProofLabels.v and ProofDocs.v, specification in SpecLabels.v. *)
From Verif Require Import Base Compact Types Indicators Decode Spec Api SpecLabels ProofSim
  ProofHint ProofLabels ProofDocs Sample.
Local Open Scope string_scope.
Local Open Scope list_scope.

(** C12: with any two hints, decoding anything from any source (in memory or external)
    ends the same way: same error, or same data up to labels and same type information; in
    both cases at the same position and with the same accesses to external memory. *)
Theorem c12_hints_only_label : forall (E : Type) (b : buffer E) (r : registry E) h1 h2 id pos e,
  let run h := decode_with_type b r (Symbol id) (Propagated (Checker None h []) []) pos e in
  snd (fst (run h1)) = snd (fst (run h2)) /\ snd (run h1) = snd (run h2) /\
  match fst (fst (run h1)), fst (fst (run h2)) with
  | Ok x1, Ok x2 => unlabel (x_data x1) = unlabel (x_data x2) /\ x_info x1 = x_info x2
  | Err y1, Err y2 => y1 = y2
  | Panic, Panic | OutOfFuel, OutOfFuel => True
  | _, _ => False
  end.
Proof. intros E b r h1 h2 id pos e. exact (hint_same b r h1 h2 id pos e). Qed.
Print Assumptions c12_hints_only_label.

(** In memory. *)
Theorem c12_hints_in_memory : forall types data id pos h1 h2 x q,
  is_bytes data -> decode_hinted h1 types data id pos = (Ok x, q) ->
  exists x', decode_hinted h2 types data id pos = (Ok x', q) /\
    unlabel (x_data x') = unlabel (x_data x) /\ x_info x' = x_info x.
Proof. intros types data id pos h1 h2 x q Hb H. exact (hints_only_label types h1 h2 data id pos x q Hb H). Qed.
Print Assumptions c12_hints_in_memory.

(** Hints really label. *)
Example c12_example :
  decode_hinted HCheckNonce sample [7; 0; 0; 0]%N 0 0 = (Ok (Ext (DUInt U32 7 SuNonce) []), 4%nat) /\
  decode_hinted HNone sample [7; 0; 0; 0]%N 0 0 = (Ok (Ext (DUInt U32 7 SuNone) []), 4%nat).
Proof. vm_compute. split; reflexivity. Qed.

(** C13: two registries with the same types up to docs. *)
Theorem c13_docs_no_influence : forall (E : Type) (b : buffer E) types1 types2 id pos e,
  map undoc_ty types1 = map undoc_ty types2 ->
  let run types := decode_as_type_at_position b (portable types) id pos e in
  snd (fst (run types1)) = snd (fst (run types2)) /\ snd (run types1) = snd (run types2) /\
  match fst (fst (run types1)), fst (fst (run types2)) with
  | Ok x1, Ok x2 => undoc_ext x1 = undoc_ext x2
  | Err y1, Err y2 => y1 = y2
  | Panic, Panic | OutOfFuel, OutOfFuel => True
  | _, _ => False
  end.
Proof. intros E b t1 t2 id pos e H. exact (docs_same b t1 t2 H id pos e). Qed.
Print Assumptions c13_docs_no_influence.

Definition chatty (t : ty) : ty := Ty (t_path t) (t_params t) (t_def t) ["More"; "docs."].

Example c13_example : map undoc_ty sample = map undoc_ty (map chatty sample) /\
  (exists x1 x2, decode_at sample sample_bytes 10 0 = (Ok x1, 34%nat) /\
     decode_at (map chatty sample) sample_bytes 10 0 = (Ok x2, 34%nat) /\ x1 <> x2).
Proof.
  split; [vm_compute; reflexivity|]. do 2 eexists. split; [vm_compute; reflexivity|].
  split; [vm_compute; reflexivity|]. intros H. inversion H.
Qed.
