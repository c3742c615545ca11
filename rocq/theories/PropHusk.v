(** C59: the public building blocks of the decoder.  Only statements; proofs in ProofHusk.v. *)
From Coq Require Import Lia.
From Verif Require Import Base Compact Types Indicators Decode Spec SpecHusk Sample SampleChain ProofBase ProofHusk.
Local Open Scope string_scope.
Local Open Scope list_scope.

(** `husk_type` finds what [reaches] (SpecHusk.v) says, for every registry and checker, *)
Theorem c59_husk : forall (E : Type) types id c position (e : E),
  exists r, reaches types (cycle_check c) None HNone id r /\
    husk_type (portable types) id c position e = (match r with inl x => Ok x | inr x => Err x end, position, e).
Proof. intros E types id c p e. apply husk_exact. Qed.
Print Assumptions c59_husk.

(** which is never two things. *)
Theorem c59_husk_unique : forall types seen compact h id r1 r2,
  reaches types seen compact h id r1 -> reaches types seen compact h id r2 -> r1 = r2.
Proof. intros types s c h id r1 r2 H1 H2. exact (reaches_det types _ _ _ _ _ H1 _ H2). Qed.
Print Assumptions c59_husk_unique.

(** The type found is in the registry, and has no single type to pass to. *)
Theorem c59_husk_inside : forall (E : Type) types id c position (e : E) x q e',
  husk_type (portable types) id c position e = (Ok x, q, e') ->
  lookup types (hu_id x) = Some (hu_ty x) /\ transparent (hu_ty x) = None /\ q = position /\ e' = e.
Proof.
  intros E types id c p e x q e' H. destruct (c59_husk E types id c p e) as (r & Hr & Hh). rewrite Hh in H.
  destruct r as [y|y]; [|discriminate]. assert (y = x /\ p = q /\ e = e') as (-> & -> & ->) by (injection H; auto).
  destruct (reached_inside types _ _ _ _ _ Hr) as [H1 H2]. auto.
Qed.
Print Assumptions c59_husk_inside.

(** `SignatureIndicator::from_field` answers for exactly the fields that are signatures, *)
Theorem c59_signature : forall (E : Type) types f position (e : E), exists o,
  signature_from_field (portable types) f position e = (Ok (indicator o), position, e) /\
  match o with Some k => signs types f k | None => forall k, ~ signs types f k end.
Proof. intros E types f p e. apply signature_exact. Qed.
Print Assumptions c59_signature.

(** and for only one kind of them. *)
Theorem c59_signature_unique : forall types f k1 k2, signs types f k1 -> signs types f k2 -> k1 = k2.
Proof. intros types f k1 k2. apply signs_det. Qed.
Print Assumptions c59_signature_unique.

(** `SpecialtyTypeChecked::from_type`: what the type is at this place of the data; the position
    moves past the index byte only if the byte has been used. *)
Theorem c59_recognised : forall (E : Type) types data t position (e : E),
  exists k n, found types t (nth_error data position) k n /\
    checked_from_type (slice_buffer data) (portable types) t position e = (Ok k, (position + n)%nat, e).
Proof. intros E types data t p e. apply checked_exact. Qed.
Print Assumptions c59_recognised.

Theorem c59_recognised_unique : forall types t o k1 n1 k2 n2,
  found types t o k1 n1 -> found types t o k2 n2 -> k1 = k2 /\ n1 = n2.
Proof. intros types t o k1 n1 k2 n2. apply found_det. Qed.
Print Assumptions c59_recognised_unique.

(** `pick_variant`: the variant whose index is the byte at the position; the position given to
    later reads does not move. *)
Theorem c59_pick : forall (E : Type) data variants at_p position (e : E),
  pick_variant (slice_buffer data) variants at_p position e =
  (match nth_error data at_p with
   | Some i => match find (fun v => (v_index v =? i)%N) variants with
               | Some v => Ok v
               | None => Err (UnexpectedEnumVariant at_p)
               end
   | None => Err (PBuffer (if (at_p <=? List.length data)%nat then DataTooShort at_p 1 else OutOfRange at_p (List.length data)))
   end, position, e).
Proof. intros E data vs at_p p e. apply pick_exact. Qed.
Print Assumptions c59_pick.

(** `BitVecPositions`/`find_bit_order_ty`: the order of bits by the name of its type. *)
Theorem c59_order : forall (E : Type) types order id position (e : E),
  exists r, order_answer types order id r /\
    find_bit_order_ty (portable types) order id position e = (match r with inl x => Ok x | inr x => Err x end, position, e).
Proof. intros E types order id p e. apply order_exact. Qed.
Print Assumptions c59_order.

Theorem c59_order_unique : forall types order id r1 r2,
  order_answer types order id r1 -> order_answer types order id r2 -> r1 = r2.
Proof. intros types order id r1 r2. apply order_det. Qed.
Print Assumptions c59_order_unique.

(** ** Concrete cases *)

(** A struct holding a compact of a struct holding a number; one with a repeated compact; one
    holding itself. *)
Definition nest : list ty :=
  [ (* 0 *) Ty [] [] (TPrimitive (PrU U8)) [];
    (* 1 *) Ty ["Inner"] [] (TComposite [Field (Some "x") 0 None []]) ["Inside."];
    (* 2 *) Ty [] [] (TCompact 1) [];
    (* 3 *) Ty ["Outer"] [] (TComposite [Field (Some "value") 2 (Some "Balance") []]) ["Outside."];
    (* 4 *) Ty [] [] (TCompact 3) [];
    (* 5 *) Ty ["Loop"] [] (TComposite [Field None 6 None []]) [];
    (* 6 *) Ty ["Loop2"] [] (TComposite [Field None 5 None []]) [];
    (* 7 *) Ty [] [] (TCompact 40) [];
    (* 8 *) Ty [] [] (TArray 64 0) [];
    (* 9 *) Ty ["Signature"] [] (TComposite [Field None 8 (Some "[u8; 64]") []]) [];
    (* 10 *) Ty ["sp_runtime"; "MultiSignature"] [] (TVariant
        [ Variant "Ed25519" [Field None 9 (Some "ed25519::Signature") []] 0 [];
          Variant "Sr25519" [Field None 9 (Some "sr25519::Signature") []] 1 [];
          Variant "Ecdsa" [Field None 9 (Some "ecdsa::Signature") []] 2 [] ]) [] ].

Example c59_husk_cases :
  husk_type (E := unit) (portable nest) 3 checker_new 7 tt =
    (Ok (Husked [Info "Outside." ["Outer"]; Info "Inside." ["Inner"]] (Checker (Some 2%N) HFieldBalance [3; 2; 1; 0]%N)
           (Ty [] [] (TPrimitive (PrU U8)) []) 0%N), 7%nat, tt) /\
  fst (fst (husk_type (E := unit) (portable nest) 4 checker_new 7 tt)) = Err (RInternal (UnexpectedCompactInsides 4)) /\
  fst (fst (husk_type (E := unit) (portable nest) 5 checker_new 7 tt)) = Err (RInternal (CyclicMetadata 5)) /\
  fst (fst (husk_type (E := unit) (portable nest) 7 checker_new 7 tt)) = Err (RInternal (TypeNotResolved 40)).
Proof. vm_compute. repeat split. Qed.

(** Byte 1 chooses the Sr25519 signature; byte 2 names a signature of the wrong length, and byte
    9 no variant: then nothing is recognised, and no byte used. *)
Example c59_recognised_cases :
  let run data := fst (checked_from_type (E := unit) (slice_buffer data) (portable nest) (nth 10 nest (Ty [] [] (TTuple []) [])) 1 tt) in
  run [5; 1; 8]%N = (Ok (CFixed KSigSr25519), 2%nat) /\ run [5; 2; 8]%N = (Ok CNone, 1%nat) /\
  run [5; 9; 8]%N = (Ok CNone, 1%nat) /\ run [5]%N = (Ok CNone, 1%nat).
Proof. vm_compute. repeat split. Qed.

(** A call: byte 4 chooses the pallet, whose calls are given. *)
Example c59_call_case : exists vs,
  fst (checked_from_type (E := unit) (slice_buffer the_call) (portable chain_types) (nth 9 chain_types (Ty [] [] (TTuple []) [])) 0 tt) =
    (Ok (CPalletSpecific "Balances" (Info "Calls." ["pallet_balances"; "pallet"; "Call"]) vs ItCall), 1%nat) /\
  map v_name vs = ["transfer"; "burn"].
Proof. eexists. vm_compute. split; reflexivity. Qed.

Example c59_order_case :
  fst (fst (find_bit_order_ty (E := unit) (portable sample) 12 13 0 tt)) = Ok Lsb0 /\
  fst (fst (find_bit_order_ty (E := unit) (portable sample) 9 13 0 tt)) = Err (RInternal (NotBitOrderType 13)).
Proof. vm_compute. split; reflexivity. Qed.
