(** C43: bit vectors with u64 store on 32-bit targets. [patch_bitvec_u64 o b pos e] is what
    the library runs there instead of the decoding checked in C18. *)
From Verif Require Import Base Compact Types Decode Patch32 Spec SpecKinds SpecPatch Api Sample ProofBase ProofPatch PropKinds.
Local Open Scope list_scope.

(** Every bit string of up to 2^32 - 1 bits in its SCALE encoding, anywhere in the data:
    exactly those bits come back and exactly the encoding is consumed, unless the last group
    of 64 bits has more than 32 bits and begins with 32 zeros: then it panics. *)
Theorem c43_bits : forall o bits pre post, is_bytes (pre ++ post) ->
  (N.of_nat (List.length bits) < 2 ^ 32)%N ->
  patch_bitvec_u64 o (@slice_buffer unit (pre ++ bits_enc U64 o bits ++ post)) (List.length pre) tt =
    (if bad_bits bits then Panic else Ok bits, (List.length pre + List.length (bits_enc U64 o bits))%nat, tt).
Proof.
  intros o bits pre post Hb Hn. apply patch_bits; [exact Hb|]. unfold fits. apply N.ltb_lt. exact Hn.
Qed.
Print Assumptions c43_bits.

(** So it agrees with the decoding on 64-bit targets on every other bit string the latter
    accepts. *)
Theorem c43_same : forall types id t store order o bits pre post,
  lookup types id = Some t -> def_of t = Some (TBitSequence store order) ->
  bit_store types store = Some U64 -> bit_order_of types order = Some o ->
  (N.of_nat (List.length bits) <= 2 ^ 29 - 1)%N -> is_bytes (pre ++ post) -> bad_bits bits = false ->
  exists q,
    decode_at types (pre ++ bits_enc U64 o bits ++ post) id (List.length pre) =
      (Ok (Ext (DBitVec U64 o bits) (own_info t)), q) /\
    patch_bitvec_u64 o (@slice_buffer unit (pre ++ bits_enc U64 o bits ++ post)) (List.length pre) tt =
      (Ok bits, q, tt).
Proof.
  intros types id t store order o bits pre post H1 H2 H3 H4 H5 H6 H7. eexists. split.
  - eapply c18_bits; eassumption.
  - rewrite c43_bits; [|assumption|].
    + rewrite H7. reflexivity.
    + eapply N.le_lt_trans; [exact H5|]. reflexivity.
Qed.
Print Assumptions c43_same.

(** The outcome on any number of bits and any store elements, padding included:
    [patch_outcome] (SpecPatch.v). *)
Theorem c43_exact : forall o data pos n elems, is_bytes data -> stands data pos n elems ->
  patch_bitvec_u64 o (@slice_buffer unit data) pos tt =
    (patch_outcome o n elems, (pos + stands_length n elems)%nat, tt).
Proof. intros o data pos n elems. apply patch_exact. Qed.
Print Assumptions c43_exact.

(** Where no bit vector stands there is an error, no panic, and the position stays. *)
Theorem c43_refuses : forall o data pos, is_bytes data -> (forall n elems, ~ stands data pos n elems) ->
  exists y, patch_bitvec_u64 o (@slice_buffer unit data) pos tt = (Err y, pos, tt).
Proof. intros o data pos. apply patch_refuses. Qed.
Print Assumptions c43_refuses.

(** Types 0 and 3: u64 bits, Lsb0 and Msb0. *)
Definition bits_types : list ty :=
  [ Ty [] [] (TBitSequence 1 2) []; Ty [] [] (TPrimitive (PrU U64)) [];
    Ty ["bitvec"; "order"; "Lsb0"]%string [] (TComposite []) [];
    Ty [] [] (TBitSequence 1 4) [];
    Ty ["bitvec"; "order"; "Msb0"]%string [] (TComposite []) [] ].

(** 100 bits, starting with 32 zeros; the last group of 36 bits is not all zeros. *)
Definition some_bits : list bool := repeat false 32 ++ repeat true 40 ++ [false; true; true; false] ++ repeat false 24.

Example c43_case : bad_bits some_bits = false /\ List.length some_bits = 100%nat /\
  bit_store bits_types 1 = Some U64 /\ bit_order_of bits_types 2 = Some Lsb0 /\ bit_order_of bits_types 4 = Some Msb0 /\
  patch_bitvec_u64 Lsb0 (@slice_buffer unit ([7; 7]%N ++ bits_enc U64 Lsb0 some_bits ++ [1]%N)) 2 tt =
    (Ok some_bits, 20%nat, tt) /\
  patch_bitvec_u64 Msb0 (@slice_buffer unit ([7; 7]%N ++ bits_enc U64 Msb0 some_bits ++ [1]%N)) 2 tt =
    (Ok some_bits, 20%nat, tt).
Proof. vm_compute. repeat split. Qed.

(** The property as first stated is false: 33 zeros, which decode on 64-bit targets, panic
    on 32-bit targets, in both orders. *)
Theorem c43_panics : forall o id, (o = Lsb0 /\ id = 0%N) \/ (o = Msb0 /\ id = 3%N) ->
  let data := bits_enc U64 o (repeat false 33) in
  decode_at bits_types data id 0 = (Ok (Ext (DBitVec U64 o (repeat false 33)) []), 9%nat) /\
  patch_bitvec_u64 o (@slice_buffer unit data) 0 tt = (Panic, 9%nat, tt).
Proof. intros o id [[-> ->]|[-> ->]]; vm_compute; split; reflexivity. Qed.
Print Assumptions c43_panics.

(** And with bits set in the padding of an Msb0 vector the bits delivered are wrong: one
    zero bit, with a one in the padding 32 places after it, is delivered as a one. *)
Theorem c43_wrong_bits :
  let data := compact_enc 1 ++ le_bytes 8 (2 ^ 31) in
  decode_at bits_types data 3 0 = (Ok (Ext (DBitVec U64 Msb0 [false]) []), 9%nat) /\
  patch_bitvec_u64 Msb0 (@slice_buffer unit data) 0 tt = (Ok [true], 9%nat, tt).
Proof. vm_compute. split; reflexivity. Qed.
Print Assumptions c43_wrong_bits.

(** The limit of 2^29 - 1 bits which holds on 64-bit targets (c18_bits_too_long) does not
    hold on 32-bit targets. *)
Theorem c43_no_limit : forall o bits, (2 ^ 29 <= N.of_nat (List.length bits) < 2 ^ 32)%N -> bad_bits bits = false ->
  (forall types id t store order, lookup types id = Some t -> def_of t = Some (TBitSequence store order) ->
     exists y q, decode_at types (bits_enc U64 o bits) id 0 = (Err y, q)) /\
  exists q, patch_bitvec_u64 o (@slice_buffer unit (bits_enc U64 o bits)) 0 tt = (Ok bits, q, tt).
Proof.
  intros o bits [Hlo Hhi] Hg. pose proof (c43_bits o bits [] [] (Forall_nil _) Hhi) as H.
  cbn [app List.length] in H. rewrite app_nil_r, Hg in H. split; [|eauto].
  intros types id t store order Hl Hd.
  apply (c18_bits_too_long types _ id 0%nat t store order (N.of_nat (List.length bits))).
  - apply (bits_enc_is_bytes U64 o bits). unfold fits. apply N.ltb_lt. exact Hhi.
  - exact Hl.
  - exact Hd.
  - split; [|exact Hhi]. eapply N.lt_le_trans; [|exact Hlo]. reflexivity.
  - unfold slice, bits_enc. cbn [skipn]. apply firstn_app_exact.
Qed.
Print Assumptions c43_no_limit.
