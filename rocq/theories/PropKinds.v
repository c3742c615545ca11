(** C15-C20: particular kinds of types.  Only statements; proofs in ProofKinds.v and
    ProofKinds2.v, specification in Spec.v and SpecKinds.v. *)
From Verif Require Import Base Compact Types Indicators Decode Spec SpecKinds Api ProofKinds ProofKinds2 Sample.
Local Open Scope string_scope.
Local Open Scope list_scope.

(** C15: every compact inside decoded data, at any depth, wraps an integer, a per-thing or
    nothing, through single-member structs and tuples only, and its bytes are a canonical
    compact (or nothing). *)
Theorem c15_compact_only : forall types data id pos x q, is_bytes data ->
  decode_at types data id pos = (Ok x, q) ->
  exists v, enc types false id v = Some (slice data pos (q - pos)) /\
    view types false HNone id v = Some (x_data x, x_info x) /\
    forall j u t inner, part types id v j (VCompact u) -> lookup types j = Some t ->
      def_of t = Some (TCompact inner) ->
      compactable types inner /\
      exists cbs, enc types true inner u = Some cbs /\ (cbs = [] \/ exists n, cbs = compact_enc n).
Proof. exact compact_only. Qed.
Print Assumptions c15_compact_only.

(** A compact around anything else is an error, whatever the data. *)
Theorem c15_compact_other : forall types data id pos t inner, is_bytes data ->
  lookup types id = Some t -> def_of t = Some (TCompact inner) -> ~ compactable types inner ->
  exists y q, decode_at types data id pos = (Err y, q).
Proof. exact compact_other_error. Qed.
Print Assumptions c15_compact_other.

Definition bad_compacts : list ty :=
  [ (* 0 *) Ty [] [] (TPrimitive PrBool) []; (* 1 *) Ty [] [] (TCompact 0) [];
    (* 2 *) Ty ["W"] [] (TComposite [Field None 1 None []]) []; (* 3 *) Ty [] [] (TSequence 2) [] ].

Example c15_example :
  compactable sample 3 /\ ~ compactable bad_compacts 0 /\
  decode_at sample [3; 255; 255; 255; 255]%N 4 0 = (Ok (Ext (DUInt U128 0xFFFFFFFF SuNone) []), 5%nat) /\
  decode_at bad_compacts [4; 1]%N 1 0 = (Err (PRegistry (RInternal (UnexpectedCompactInsides 1))), 0%nat) /\
  decode_at bad_compacts [4; 1]%N 3 0 = (Err (PRegistry (RInternal (UnexpectedCompactInsides 1))), 1%nat).
Proof.
  repeat split; try (vm_compute; reflexivity).
  - eapply cp_uint; vm_compute; reflexivity.
  - intros H. inversion H as [? ? ? Hl Hd|? ? ? Hl Hd|? ? Hl Hd|? ? ? Hl Hd|? ? Hl Hd|? ? ? Hl Hd];
      vm_compute in Hl; injection Hl as <-; discriminate Hd.
Qed.

(** C16: the first byte selects the first variant declared with that index; the data
    carries its name, docs and fields.  MultiSignature variants that hold a bare signature
    are shown as the signature; pallet calls and events as such, by the second byte. *)
Theorem c16_enum_by_index : forall types data id pos t variants b x q, is_bytes data ->
  lookup types id = Some t -> def_of t = Some (TVariant variants) -> variants <> [] ->
  nth_error data pos = Some b ->
  decode_at types data id pos = (Ok x, q) ->
  exists var, first_with variants b var /\
  ((exists fs, x_data x = DVariant (VData (v_name var) (docs_text (v_docs var)) fs) /\
      map got_field fs = map shown_field (v_fields var)) \/
   (exists k l, classify t = SpMultiSig /\ variant_sig types t var = Some k /\ x_data x = DFixed k l) \/
   (exists inner items b2 item fs, pallet_items types t var = Some (inner, items) /\
      nth_error data (pos + 1) = Some b2 /\ first_with items b2 item /\
      map got_field fs = map shown_field (v_fields item) /\
      let d := PSData (Info (docs_text (t_docs inner)) (t_path inner)) (docs_text (v_docs item))
                 (v_name var) (v_name item) fs in
      x_data x = match classify t with SpItem ItEvent => DEvent d | _ => DCall d end)).
Proof. exact enum_by_index. Qed.
Print Assumptions c16_enum_by_index.

(** A byte that no variant declares is refused, naming its position, and is not consumed. *)
Theorem c16_unknown_index : forall types data id pos t variants b,
  lookup types id = Some t -> def_of t = Some (TVariant variants) -> variants <> [] ->
  nth_error data pos = Some b -> none_with variants b ->
  decode_at types data id pos = (Err (UnexpectedEnumVariant pos), pos).
Proof. exact enum_unknown. Qed.
Print Assumptions c16_unknown_index.

(** Indexes out of order and repeated: the first declared one with the index is used. *)
Definition shuffled : list ty :=
  [ Ty [] [] (TVariant [Variant "C" [] 9 []; Variant "A" [] 4 []; Variant "B" [] 0 []; Variant "D" [] 4 []]) [] ].
Example c16_example :
  decode_at shuffled [7; 4; 9]%N 0 1 = (Ok (Ext (DVariant (VData "A" "" [])) []), 2%nat) /\
  decode_at shuffled [7; 4; 9]%N 0 2 = (Ok (Ext (DVariant (VData "C" "" [])) []), 3%nat) /\
  decode_at shuffled [7; 4; 9]%N 0 0 = (Err (UnexpectedEnumVariant 0), 0%nat).
Proof. vm_compute. repeat split. Qed.

(** C17: text is accepted exactly when it is the UTF-8 encoding of scalar values. *)
Theorem c17_text : forall types data id pos t x q, is_bytes data ->
  lookup types id = Some t -> def_of t = Some (TPrimitive PrStr) ->
  (decode_at types data id pos = (Ok x, q) <->
   exists l cs, forallb scalar cs = true /\ l = utf8s cs /\ (N.of_nat (List.length l) < 2 ^ 32)%N /\
     slice data pos (q - pos) = compact_enc (N.of_nat (List.length l)) ++ l /\
     q = (pos + List.length (compact_enc (N.of_nat (List.length l)) ++ l))%nat /\
     x = Ext (DText l SsNone) (own_info t)).
Proof. exact text_iff. Qed.
Print Assumptions c17_text.

Theorem c17_not_text : forall types data id pos t l, is_bytes data ->
  lookup types id = Some t -> def_of t = Some (TPrimitive PrStr) ->
  (N.of_nat (List.length l) < 2 ^ 32)%N ->
  slice data pos (List.length (compact_enc (N.of_nat (List.length l)) ++ l)) = compact_enc (N.of_nat (List.length l)) ++ l ->
  (forall cs, forallb scalar cs = true -> l <> utf8s cs) ->
  decode_at types data id pos = (Err (TypeFailure pos "str"), pos).
Proof. exact text_refused. Qed.
Print Assumptions c17_not_text.

(** A surrogate (ED A0 80) and an overlong zero (C0 80) are refused. *)
Example c17_example :
  decode_at sample [12; 0xE2; 0x82; 0xAC; 9]%N 5 0 = (Ok (Ext (DText [0xE2; 0x82; 0xAC]%N SsNone) []), 4%nat) /\
  decode_at sample [12; 0xED; 0xA0; 0x80]%N 5 0 = (Err (TypeFailure 0 "str"), 0%nat) /\
  decode_at sample [8; 0xC0; 0x80]%N 5 0 = (Err (TypeFailure 0 "str"), 0%nat).
Proof. vm_compute. repeat split. Qed.

(** C18: any bit string of at most 2^29 - 1 bits. *)
Theorem c18_bits : forall types id t store order w o bits pre post,
  lookup types id = Some t -> def_of t = Some (TBitSequence store order) ->
  bit_store types store = Some w -> bit_order_of types order = Some o ->
  (N.of_nat (List.length bits) <= 2 ^ 29 - 1)%N -> is_bytes (pre ++ post) ->
  decode_at types (pre ++ bits_enc w o bits ++ post) id (List.length pre) =
    (Ok (Ext (DBitVec w o bits) (own_info t)), (List.length pre + List.length (bits_enc w o bits))%nat).
Proof. exact bits_exact. Qed.
Print Assumptions c18_bits.

Theorem c18_bits_too_long : forall types data id pos t store order n, is_bytes data ->
  lookup types id = Some t -> def_of t = Some (TBitSequence store order) ->
  (2 ^ 29 - 1 < n < 2 ^ 32)%N ->
  slice data pos (List.length (compact_enc n)) = compact_enc n ->
  exists y q, decode_at types data id pos = (Err y, q).
Proof. exact bits_too_long. Qed.
Print Assumptions c18_bits_too_long.

Example c18_example :
  let bits := [true; false; false; true; true; false; false; false; false; true; true] in
  bits_enc U8 Lsb0 bits = [44; 25; 6]%N /\ bits_enc U8 Msb0 bits = [44; 152; 96]%N /\
  decode_at sample [44; 25; 6]%N 13 0 = (Ok (Ext (DBitVec U8 Lsb0 bits) []), 3%nat).
Proof. vm_compute. repeat split. Qed.

(** C19: [era_encode] and [era_decode_all] are the model of `Era::encode` and
    `Era::decode`; [era_enc] and [era_valid] the specification. *)
Theorem c19_era_encode : forall e, era_valid e = true -> era_encode e = Some (era_enc e).
Proof. exact era_encode_spec. Qed.
Print Assumptions c19_era_encode.

Theorem c19_era_decode : forall l e, is_bytes l ->
  (era_decode_all l = Some e <-> era_valid e = true /\ l = era_enc e).
Proof. exact era_decode_spec. Qed.
Print Assumptions c19_era_decode.

(** Every decoded era re-encodes to the bytes it came from. *)
Theorem c19_era_inverse : forall l e, is_bytes l -> era_decode_all l = Some e -> era_encode e = Some l.
Proof.
  intros l e Hb H. apply era_decode_spec in H; [|exact Hb]. destruct H as [Hv ->]. apply era_encode_spec, Hv.
Qed.
Print Assumptions c19_era_inverse.

Theorem c19_era_in_place : forall types data id pos t x q, is_bytes data ->
  lookup types id = Some t -> classify t = SpEra ->
  (decode_at types data id pos = (Ok x, q) <->
   exists e, era_valid e = true /\ slice data pos (List.length (era_enc e)) = era_enc e /\
     q = (pos + List.length (era_enc e))%nat /\ x = Ext (DEra e) (own_info t)).
Proof. exact era_in_place. Qed.
Print Assumptions c19_era_in_place.

Example c19_example :
  era_valid (Mortal 64 27) = true /\ era_encode (Mortal 64 27) = Some [181; 1]%N /\
  fst (decode_at sample [181; 1; 0]%N 11 0) =
    Ok (Ext (DEra (Mortal 64 27)) [Info "" ["sp_runtime"; "generic"; "era"; "Era"]]) /\
  snd (decode_at sample [0; 1; 0]%N 11 0) = 1%nat.
Proof. vm_compute. repeat split. Qed.

(** C20: whatever the elements, a collected sequence says the same as they do. *)
Theorem c20_collect : forall ds s, wrap_sequence ds = Some s -> collected s ds.
Proof. exact wrap_faithful. Qed.
Print Assumptions c20_collect.

Theorem c20_sequence : forall types data id pos t el x q, is_bytes data ->
  lookup types id = Some t -> (def_of t = Some (TSequence el) \/ exists n, def_of t = Some (TArray n el)) ->
  decode_at types data id pos = (Ok x, q) ->
  exists vs ds inf,
    (enc types false id (VSeq vs) = Some (slice data pos (q - pos)) \/
     enc types false id (VArr vs) = Some (slice data pos (q - pos))) /\
    Forall2 (fun v d => exists l, view types true HNone el v = Some (d, l)) vs ds /\
    (x_data x = DSequenceRaw inf ds \/ exists s, x_data x = DSequence inf s /\ collected s ds).
Proof. exact sequence_faithful. Qed.
Print Assumptions c20_sequence.

(** The same at every depth: in the parsed form of any value (see C04) all vectors and
    arrays have the form [sequence_of]. *)
Theorem c20_everywhere : forall inf ds,
  sequence_of inf ds = DSequenceRaw inf ds \/ exists s, sequence_of inf ds = DSequence inf s /\ collected s ds.
Proof. exact sequence_of_faithful. Qed.
Print Assumptions c20_everywhere.

Example c20_example :
  decode_at sample [12; 1; 2; 255]%N 2 0 = (Ok (Ext (DSequence [] (SeqU U8 [1; 2; 255]%N)) []), 4%nat) /\
  wrap_sequence [DUInt U32 1 SuNone; DUInt U32 2 SuNonce] = None.
Proof. vm_compute. repeat split. Qed.
