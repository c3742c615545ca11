(** C84 for chains whose metadata is in the repository. *)
From Coq Require Import Lia.
From Verif Require Import Base Compact Types Indicators Decode Sign Unchecked Meta Balance Cards Spec SpecCards SpecSee SpecFault SpecTransfer SpecIncluded SpecClock SpecAccount SpecOrder SpecUnchecked Api ApiSign
  CheckWf CheckUsable PropTransfer PropIncluded PropTransferReal PropIncludedReal PropBlock.
From Verif Require TestWestend TestPolkadot9430 TestPolkadot15 TestUnchecked15 TestAstar TestBifrost TestStatemint Address PropWhole PropReal PropSee PropOrderReal.
Local Open Scope string_scope.
Local Open Scope list_scope.

Section Real.
Context {ME : Type}.
Variable md : metadata unit ME.
Variable types : list ty.
Variables (call_ty version : N) (asset hashed bare : bool) (count : string).

(** What is seen of a signed extrinsic: the sender, the signature, the extensions and the call. *)
Definition block_lines (b58 : fixed_kind -> bytes -> N -> string) specs (s : signing) (sender : bytes) (k : fixed_kind) (signature : bytes) (a : arg) :
    list string * list string * list string * list string :=
  (["Enum";
    "  Enum Variant Name: Id";
    "    Id: " ++ b58 KAccountId32 sender (base58prefix specs)]%string,
   (if bare then [signature_name k ++ ": " ++ hex_encode signature]
    else ["Enum"; "  Enum Variant Name: " ++ kind_name k; "    " ++ signature_name k ++ ": " ++ hex_encode signature])%string,
   extensions_in_lines count asset hashed specs s,
   arg_lines b58 specs true a).

Definition shown_lines b58 icon specs chain_name bits (ad sg e : ext pdata) (call : psdata pdata) :=
  (map (show bits) (card_ext b58 icon specs chain_name ad 0 true),
   map (show bits) (card_ext b58 icon specs chain_name sg 0 true),
   map (show bits) (card_ext b58 icon specs chain_name e 0 true),
   map (show bits) (card_call b58 icon specs chain_name call 0)).

(** Sender, signature and call in range. *)
Definition block_well (s : signing) (sender : bytes) (n : N) (k : fixed_kind) (signature : bytes) (a : arg) : Prop :=
  sg_version s = version /\ proper s /\ is_bytes sender /\ List.length sender = 32%nat /\ In (n, k) kinds /\
  is_bytes signature /\ List.length signature = (if kind_eqb k KSigEcdsa then 65 else 64)%nat /\
  PropOrderReal.is_order a /\ allowed types HNone call_ty a /\
  (N.of_nat (List.length (extrinsic_of asset hashed s sender n signature (arg_bytes a))) < 2 ^ 32)%N.

(** Included calls are seen; and the call is the one seen when signing. *)
Definition block_seen : Prop := forall s g sender n k signature a,
  block_well s sender n k signature a -> g = None \/ g = Some (sg_genesis s) ->
  exists ad sg e call xs,
    parsed md g (payload (arg_bytes a) (signed_bytes asset hashed s)) = Ok (TransactionParsed (inl call) xs) /\
    parsed_extrinsic md (extrinsic_of asset hashed s sender n signature (arg_bytes a)) = Ok (UxSigned ad sg e call) /\
    forall b58 icon specs chain_name bits,
      shown_lines b58 icon specs chain_name bits ad sg e call = block_lines b58 specs s sender k signature a.

(** What is seen is included. *)
Definition seen_block : Prop := forall s sender n k signature a,
  block_well s sender n k signature a ->
  forall b58 icon specs chain_name bits data ad sg e call,
  base58_faithful b58 -> bits_faithful bits -> (decimals specs < 256)%N -> is_bytes data ->
  parsed_extrinsic md data = Ok (UxSigned ad sg e call) ->
  shown_lines b58 icon specs chain_name bits ad sg e call = block_lines b58 specs s sender k signature a ->
  exists following, data = extrinsic_of asset hashed s sender n signature (arg_bytes a ++ following).

(** The same for extrinsics that are not signed. *)
Definition unsigned_seen : Prop := forall a,
  PropOrderReal.is_order a -> allowed types HNone call_ty a -> (N.of_nat (List.length (inherent 4 (arg_bytes a))) < 2 ^ 32)%N ->
  exists call, parsed_extrinsic md (inherent 4 (arg_bytes a)) = Ok (UxUnsigned call) /\
    forall b58 icon specs chain_name bits, map (show bits) (card_call b58 icon specs chain_name call 0) = arg_lines b58 specs true a.

Definition seen_unsigned : Prop := forall a,
  PropOrderReal.is_order a -> allowed types HNone call_ty a ->
  forall b58 icon specs chain_name bits data call,
  base58_faithful b58 -> bits_faithful bits -> (decimals specs < 256)%N -> is_bytes data ->
  parsed_extrinsic md data = Ok (UxUnsigned call) ->
  map (show bits) (card_call b58 icon specs chain_name call 0) = arg_lines b58 specs true a ->
  exists following, data = inherent 4 (arg_bytes a ++ following).

Variables (p : extrinsic_params) (exts : list ext_meta).
Hypothesis md_types : m_types md = portable types.
Hypothesis usables : forall id, (id < N.of_nat (List.length types))%N -> usable types id.
Hypothesis is_params : m_extrinsic_type_params md = inl p.
Hypothesis is_call : m_call_ty md = inl (ep_call p).
Hypothesis call_is : ep_call p = call_ty.
Hypothesis is_version : m_extrinsic_version md = inl 4%N.
Hypothesis is_exts : m_signed_extensions md = inl exts.
Hypothesis usual : extensionsb types exts = true.
Hypothesis usual_parts : extrinsicb types bare p exts = true.
Hypothesis takers : takes exts = PropTransferReal.order asset hashed.
Hypothesis counted : count = dec_string (N.of_nat (List.length exts)).
Variable nv : spec_name_version.
Hypothesis is_spec : m_spec_name_version md = inl nv.
Hypothesis spec_is : printed_spec_version nv = dec_string version.
Hypothesis apart : told_apart types.

Lemma block_real : block_seen /\ seen_block /\ unsigned_seen /\ seen_unsigned.
Proof.
  pose proof (usable_acyclic types usables) as Hac. pose proof (the_chain_ok md types md_types) as Hch.
  pose proof (fun s specs => usual_inside asset hashed count exts s specs takers counted) as UI.
  assert (EI : forall s sender n signature call, included_bytes 4 sender n signature (extra_bytes s exts) call = extrinsic_of asset hashed s sender n signature call).
  { intros s sender n signature call. rewrite (proj1 (UI s (ShortSpecs 0 0 ""))). reflexivity. }
  assert (HL : forall k signature, signature_lines (form_of bare k) k signature =
    (if bare then [signature_name k ++ ": " ++ hex_encode signature]
     else ["Enum"; "  Enum Variant Name: " ++ kind_name k; "    " ++ signature_name k ++ ": " ++ hex_encode signature])%string).
  { intros k signature. destruct bare; reflexivity. }
  refine (conj _ (conj _ (conj _ _))).
  - intros s g sender n k signature a (Hv & Hp & Hsb & Hsl & Hk & Hgb & Hgl & Ho & Hal & Hlen) Hg.
    destruct (kinds_facts n k signature Hk Hgl) as (Hn & Hgl').
    destruct (c84_included ME (the_chain md types) p 4 n (form_of bare k) k exts nv s g sender signature a Hac is_params is_call is_version
      eq_refl is_exts (extrinsicb_ok _ _ _ _ _ _ usual usual_parts Hk) Hn is_spec) as (ad & sg & e & call & xs & T & U & L); try assumption.
    { rewrite Hv. exact spec_is. }
    { rewrite call_is. exact Hal. }
    { rewrite EI. exact Hlen. }
    exists ad, sg, e, call, xs. unfold transaction in T. unfold unchecked_extrinsic in U. rewrite Hch in T, U.
    rewrite (proj1 (usual_takes asset hashed s (ShortSpecs 0 0 "") "" exts takers)) in T. rewrite EI in U.
    split; [exact T|]. split; [exact U|]. intros b58 icon specs cn bits. destruct (L b58 icon specs cn bits) as (L1 & L2 & L3 & L4).
    unfold shown_lines, block_lines. rewrite L1, L2, L3, L4, HL, (proj2 (UI s specs)). reflexivity.
  - intros s sender n k signature a (Hv & Hp & Hsb & Hsl & Hk & Hgb & Hgl & Ho & Hal & Hlen) b58 icon specs cn bits data ad sg e call F1 F2 Hd Hdata U HE.
    destruct (kinds_facts n k signature Hk Hgl) as (Hn & Hgl').
    unfold shown_lines, block_lines in HE. rewrite <- HL, <- (proj2 (UI s specs)) in HE. injection HE as L1 L2 L3 L4.
    unfold parsed_extrinsic in U. rewrite <- Hch in U.
    destruct (c84_only_included ME (the_chain md types) p 4 n (form_of bare k) k exts nv s sender signature a Hac apart is_params is_call is_version
      eq_refl is_exts (extrinsicb_ok _ _ _ _ _ _ usual usual_parts Hk) Hn is_spec) with
      (b58 := b58) (icon := icon) (specs := specs) (chain_name := cn) (bits := bits) (data := data) (ad := ad) (sg := sg) (e := e) (call := call)
      as (following & E); try assumption.
    { rewrite Hv. exact spec_is. }
    { rewrite call_is. exact Hal. }
    { rewrite EI. exact Hlen. }
    exists following. rewrite EI in E. exact E.
  - intros a Ho Hal Hlen.
    destruct (c84_unsigned ME (the_chain md types) p 4 a Hac is_params is_call is_version eq_refl Ho) as (d & U & L); [rewrite call_is; exact Hal|exact Hlen|].
    unfold unchecked_extrinsic in U. rewrite Hch in U. exists d. split; [exact U|exact L].
  - intros a Ho Hal b58 icon specs cn bits data call F1 F2 Hd Hdata U L. unfold parsed_extrinsic in U. rewrite <- Hch in U.
    refine (c84_only_unsigned ME (the_chain md types) p 4 a Hac apart is_params is_call is_version Ho _ b58 icon specs cn bits data call F1 F2 Hd Hdata U L).
    rewrite call_is. exact Hal.
Qed.
End Real.

Theorem c84_westend : block_seen TestWestend.md TestWestend.md_types 267 9111 false false false "7" /\ seen_block TestWestend.md TestWestend.md_types 267 9111 false false false "7" /\
  unsigned_seen TestWestend.md TestWestend.md_types 267 /\ seen_unsigned TestWestend.md TestWestend.md_types 267.
Proof.
  exact (block_real _ _ _ _ _ _ _ _ _ _ westend_md PropWhole.westend_usable westend_is_params westend_call eq_refl westend_extrinsic_version westend_is_exts westend_usual westend_parts westend_takes eq_refl _
    westend_is_spec westend_version PropSee.westend_told_apart).
Qed.
Print Assumptions c84_westend.

Theorem c84_polkadot9430 : block_seen TestPolkadot9430.md TestPolkadot9430.md_types 79 9430 false false false "9" /\ seen_block TestPolkadot9430.md TestPolkadot9430.md_types 79 9430 false false false "9" /\
  unsigned_seen TestPolkadot9430.md TestPolkadot9430.md_types 79 /\ seen_unsigned TestPolkadot9430.md TestPolkadot9430.md_types 79.
Proof.
  exact (block_real _ _ _ _ _ _ _ _ _ _ polkadot9430_md PropReal.polkadot9430_usable polkadot9430_is_params polkadot9430_call eq_refl polkadot9430_extrinsic_version polkadot9430_is_exts polkadot9430_usual polkadot9430_parts polkadot9430_takes eq_refl _
    polkadot9430_is_spec polkadot9430_version polkadot9430_apart).
Qed.
Print Assumptions c84_polkadot9430.

Theorem c84_polkadot15 : block_seen TestPolkadot15.md TestPolkadot15.md_types 68 1000001 false false false "9" /\ seen_block TestPolkadot15.md TestPolkadot15.md_types 68 1000001 false false false "9" /\
  unsigned_seen TestPolkadot15.md TestPolkadot15.md_types 68 /\ seen_unsigned TestPolkadot15.md TestPolkadot15.md_types 68.
Proof.
  exact (block_real _ _ _ _ _ _ _ _ _ _ polkadot15_md PropReal.polkadot15_usable polkadot15_is_params polkadot15_call eq_refl polkadot15_extrinsic_version polkadot15_is_exts polkadot15_usual polkadot15_parts polkadot15_takes eq_refl _
    polkadot15_is_spec polkadot15_version polkadot15_apart).
Qed.
Print Assumptions c84_polkadot15.

Theorem c84_polkadot1003003 : block_seen TestUnchecked15.md TestUnchecked15.md_types 93 1003003 false true true "10" /\ seen_block TestUnchecked15.md TestUnchecked15.md_types 93 1003003 false true true "10" /\
  unsigned_seen TestUnchecked15.md TestUnchecked15.md_types 93 /\ seen_unsigned TestUnchecked15.md TestUnchecked15.md_types 93.
Proof.
  exact (block_real _ _ _ _ _ _ _ _ _ _ polkadot1003003_md PropReal.unchecked15_usable polkadot1003003_is_params polkadot1003003_call eq_refl polkadot1003003_extrinsic_version polkadot1003003_is_exts polkadot1003003_usual polkadot1003003_parts polkadot1003003_takes eq_refl _
    polkadot1003003_is_spec polkadot1003003_version polkadot1003003_apart).
Qed.
Print Assumptions c84_polkadot1003003.

Theorem c84_astar : block_seen TestAstar.md TestAstar.md_types 164 66 false false false "7" /\ seen_block TestAstar.md TestAstar.md_types 164 66 false false false "7" /\
  unsigned_seen TestAstar.md TestAstar.md_types 164 /\ seen_unsigned TestAstar.md TestAstar.md_types 164.
Proof.
  exact (block_real _ _ _ _ _ _ _ _ _ _ astar_md PropReal.astar_usable astar_is_params astar_call eq_refl astar_extrinsic_version astar_is_exts astar_usual astar_parts astar_takes eq_refl _
    astar_is_spec astar_version astar_apart).
Qed.
Print Assumptions c84_astar.

Theorem c84_bifrost : block_seen TestBifrost.md TestBifrost.md_types 58 982 false false false "8" /\ seen_block TestBifrost.md TestBifrost.md_types 58 982 false false false "8" /\
  unsigned_seen TestBifrost.md TestBifrost.md_types 58 /\ seen_unsigned TestBifrost.md TestBifrost.md_types 58.
Proof.
  exact (block_real _ _ _ _ _ _ _ _ _ _ bifrost_md PropReal.bifrost_usable bifrost_is_params bifrost_call eq_refl bifrost_extrinsic_version bifrost_is_exts bifrost_usual bifrost_parts bifrost_takes eq_refl _
    bifrost_is_spec bifrost_version bifrost_apart).
Qed.
Print Assumptions c84_bifrost.

Theorem c84_statemint : block_seen TestStatemint.md TestStatemint.md_types 343 1002000 true false false "8" /\ seen_block TestStatemint.md TestStatemint.md_types 343 1002000 true false false "8" /\
  unsigned_seen TestStatemint.md TestStatemint.md_types 343 /\ seen_unsigned TestStatemint.md TestStatemint.md_types 343.
Proof.
  exact (block_real _ _ _ _ _ _ _ _ _ _ statemint_md PropWhole.statemint_usable statemint_is_params statemint_call eq_refl statemint_extrinsic_version statemint_is_exts statemint_usual statemint_parts statemint_takes eq_refl _
    statemint_is_spec statemint_version statemint_apart).
Qed.
Print Assumptions c84_statemint.

(** The call of [c83_example], signed by Alice; and the time of a block, set by its author. *)
Definition example_time : arg := Order 2 0 "Timestamp" "set" [("now", Number true U64 1700000000000)].
Example c84_example : block_well TestWestend.md_types 267 9111 false false included_signing alice 1 KSigSr25519 example_signature PropOrderReal.example_order /\
  hex_encode (extrinsic_of false false included_signing alice 1 example_signature (arg_bytes PropOrderReal.example_order)) =
    "81038400d43593c715fdd31c61141abd04a99fd6822c8558854ccde39a5684e7a56da27d0158e09098782f2e40602b37d94fe3e2d051c2e4927c34bc85525297310642db08280110b4a02b89676e966d07fdf7f362cdeb858d28d681564bd0f7d33dce5c8cc502040016008eaf04151687736326c9fea17e25fc5287613693c912909cb226aa4794f26a480100170004070707070707070707070707070707070707070707070707070707070707070710020c0403008eaf04151687736326c9fea17e25fc5287613693c912909cb226aa4794f26a480284d7170601040001086869" /\
  PropOrderReal.is_order example_time /\ allowed TestWestend.md_types HNone 267 example_time /\
  (N.of_nat (List.length (inherent 4 (arg_bytes example_time))) < 2 ^ 32)%N /\
  hex_encode (inherent 4 (arg_bytes example_time)) = "280402000b0068e5cf8b01" /\
  arg_lines Address.address (ShortSpecs 42 12 "WND") true example_time =
  ["Pallet: Timestamp";
   "  Call: set";
   "    Field Name: now";
   "      u64: 1700000000000"].
Proof.
  split.
  { unfold block_well. split; [reflexivity|]. split.
    { unfold proper. repeat (split; [first [apply bytes_checked; reflexivity | reflexivity]|]). split; [discriminate|exact I]. }
    split; [apply bytes_checked; reflexivity|]. split; [reflexivity|]. split; [cbn; auto|]. split; [apply bytes_checked; reflexivity|]. split; [reflexivity|].
    split; [repeat eexists|]. split; [exact (proj1 (proj2 PropOrderReal.c83_example))|]. vm_compute. reflexivity. }
  split; [vm_compute; reflexivity|]. split; [repeat eexists|]. split; [apply PropOrderReal.allowedb_ok; vm_compute; reflexivity|].
  split; [reflexivity|]. split; vm_compute; reflexivity.
Qed.
