(** C76 for chains whose metadata is in the repository: the bytes and the lines written out. *)
From Coq Require Import Lia Relations.
From Verif Require Import Base Compact Types Indicators Decode Sign Meta Balance Cards Spec SpecCards SpecSee SpecFault SpecTransfer Api ApiSign
  CheckWf CheckUsable PropTransfer.
From Verif Require TestWestend TestPolkadot9430 TestPolkadot15 TestUnchecked15 TestAstar TestBifrost TestStatemint Address PropWhole PropReal PropSee.
Local Open Scope string_scope.
Local Open Scope list_scope.

(** The extensions of these chains take the same bytes, except that on Statemint the asset to pay
    the fee in ([asset], here always None) is signed after the tip, and that on Polkadot
    1003003 the hash of the metadata may be signed, too ([hashed]). *)
Definition signed_bytes (asset hashed : bool) (s : signing) : bytes :=
  era_enc (sg_era s) ++ compact_enc (sg_nonce s) ++ compact_enc (sg_tip s) ++ (if asset then [0%N] else []) ++
  (if hashed then [match sg_metadata_hash s with None => 0%N | Some _ => 1%N end] else []) ++
  le_bytes 4 (sg_version s) ++ le_bytes 4 (sg_tx_version s) ++ sg_genesis s ++ sg_block s ++
  (if hashed then match sg_metadata_hash s with None => [0%N] | Some h => 1%N :: h end else []).

Definition signed_lines (asset hashed : bool) (specs : short_specs) (chain_name : string) (s : signing) : list string :=
  ["Era: " ++ era_text (sg_era s);
   "Nonce: " ++ dec_string (sg_nonce s)]%string ++
  (if asset then ["Struct: 2 field(s)"; "  Field Name: tip"; "    Tip Asset: " ++ dec_string (sg_tip s);
     "  Field Name: asset_id"; "    Enum"; "      Enum Variant Name: None"]
   else ["Tip: " ++ money specs (sg_tip s)])%string ++
  (if hashed then ["Struct: 1 field(s)"; "  Field Name: mode"; "    Enum";
     "      Enum Variant Name: " ++ match sg_metadata_hash s with None => "Disabled" | Some _ => "Enabled" end]%string
   else []) ++
  ["Chain: " ++ chain_name ++ dec_string (sg_version s);
   "Tx Version: " ++ dec_string (sg_tx_version s);
   "Genesis Hash: " ++ hex_encode (sg_genesis s);
   "Block Hash: " ++ hex_encode (sg_block s)]%string ++
  (if hashed then ["Enum"; "  Enum Variant Name: " ++ match sg_metadata_hash s with None => "None" | Some _ => "Some" end]%string ++
     match sg_metadata_hash s with
     | None => []
     | Some h => [match text_of h with Some text => "    Text: " ++ text | None => "    Sequence u8: " ++ hex_encode h end]%string
     end
   else []).

Section Real.
Context {ME : Type}.
Variable md : metadata unit ME.
Variable types : list ty.
Variables (call_ty i j version : N) (name : string) (asset hashed : bool).

(** Parsing [data] with [md], prefixed and plain. *)
Definition parsed (g : option bytes) (data : bytes) := result (parse_transaction (slice_buffer data) md g).
Definition parsed_unmarked (g : option bytes) (data : bytes) := result (parse_transaction_unmarked (slice_buffer data) md g).

(** Whoever signs a transfer sees it. *)
Definition transfers_seen : Prop := forall s g dest amount,
  sg_version s = version -> proper s -> g = None \/ g = Some (sg_genesis s) ->
  is_bytes dest -> List.length dest = 32%nat -> (amount < 2 ^ 128)%N ->
  exists call xs,
    parsed g (payload (i :: j :: 0%N :: dest ++ compact_enc amount) (signed_bytes asset hashed s)) = Ok (TransactionParsed (inl call) xs) /\
    parsed_unmarked g ((i :: j :: 0%N :: dest ++ compact_enc amount) ++ signed_bytes asset hashed s) = Ok (call, xs) /\
    forall b58 icon specs chain_name bits,
      map (show bits) (card_call b58 icon specs chain_name call 0) =
        ["Pallet: Balances";
         "  Call: " ++ name;
         "    Field Name: dest";
         "      Enum";
         "        Enum Variant Name: Id";
         "          Id: " ++ b58 KAccountId32 dest (base58prefix specs);
         "    Field Name: value";
         "      Balance: " ++ money specs amount]%string /\
      map (show bits) (card_extensions b58 icon specs chain_name xs) = signed_lines asset hashed specs chain_name s.

(** Whoever sees a transfer signs it. *)
Definition transfers_signed : Prop := forall s g dest amount,
  sg_version s = version -> proper s -> g = None \/ g = Some (sg_genesis s) ->
  is_bytes dest -> List.length dest = 32%nat -> (amount < 2 ^ 128)%N ->
  forall b58 icon specs chain_name bits data call xs,
  base58_faithful b58 -> bits_faithful bits -> (decimals specs < 256)%N -> is_bytes data ->
  parsed g data = Ok (TransactionParsed (inl call) xs) ->
  map (show bits) (card_call b58 icon specs chain_name call 0) = transfer_lines b58 specs name dest amount ->
  map (show bits) (card_extensions b58 icon specs chain_name xs) = signed_lines asset hashed specs chain_name s ->
  data = payload (i :: j :: 0%N :: dest ++ compact_enc amount) (signed_bytes asset hashed s).

Definition the_chain : chain ME :=
  Chain ME types (m_spec_name_version md) (m_call_ty md) (m_signed_extensions md) (m_extrinsic_type_params md) (m_extrinsic_version md).

Lemma the_chain_ok : m_types md = portable types -> chain_metadata the_chain = md.
Proof. unfold the_chain, chain_metadata. cbn [ch_types ch_spec ch_call ch_extensions ch_params ch_version]. intros <-. destruct md. reflexivity. Qed.

Lemma usable_acyclic : (forall id, (id < N.of_nat (List.length types))%N -> usable types id) -> acyclic types.
Proof.
  intros H id Hc. assert (Hl : lookup types id <> None).
  { assert (G : forall a b, clos_trans N (contains types) a b -> lookup types a <> None).
    { induction 1 as [a b (t & E & _)|a b c _ IH _ _]; [rewrite E; discriminate|exact IH]. }
    exact (G id id Hc). }
  assert (Hr : (id < N.of_nat (List.length types))%N).
  { unfold lookup in Hl. destruct (N.ltb_spec id (N.of_nat (List.length types))); [assumption|congruence]. }
  destruct (H id Hr id) as (t & _ & Hn & _); [|exact (Hn Hc)]. constructor.
Qed.

(** The extensions which take bytes, in this order. *)
Definition order : list string :=
  ["CheckSpecVersion"; "CheckTxVersion"; "CheckGenesis"; "CheckMortality"; "CheckNonce";
   if asset then "ChargeAssetTxPayment" else "ChargeTransactionPayment"] ++ (if hashed then ["CheckMetadataHash"] else []).
Definition takes (l : list ext_meta) : list string :=
  filter (fun i => existsb (String.eqb i) known_extensions) (map em_identifier l).

Lemma usual_takes s specs cn l : takes l = order ->
  all_extension_bytes s l = signed_bytes asset hashed s /\ all_extension_lines specs cn s l = signed_lines asset hashed specs cn s.
Proof.
  intros H.
  assert (G : forall A (f : string -> list A), (forall i, existsb (String.eqb i) known_extensions = false -> f i = []) ->
    flat_map (fun m => f (em_identifier m)) l = flat_map f order).
  { intros A f Hf. rewrite <- H. unfold takes. clear H. induction l as [|m l IH]; [reflexivity|]. cbn [flat_map map filter].
    destruct (existsb _ known_extensions) eqn:E; [cbn [flat_map]|rewrite (Hf _ E)]; rewrite IH; reflexivity. }
  assert (K : forall i, existsb (String.eqb i) known_extensions = false ->
    extension_bytes s i = [] /\ additional_bytes s i = [] /\ extension_lines specs s i = [] /\ additional_lines cn s i = []).
  { intros k E. unfold known_extensions in E. cbn [existsb] in E. rewrite !Bool.orb_false_iff in E.
    destruct E as (E1 & E2 & E3 & E4 & E5 & E6 & E7 & E8 & _). unfold extension_bytes, additional_bytes, extension_lines, additional_lines.
    rewrite E1, E2, E3, E4, E5, E6, E7, E8. auto. }
  unfold all_extension_bytes, all_extension_lines. rewrite !(G _ _) by (intros k E; apply K in E; tauto). unfold order, signed_bytes, signed_lines.
  split; [|unfold extension_lines, additional_lines, hash_mode_lines, hash_lines; destruct asset, hashed; try reflexivity; destruct (sg_metadata_hash s) as [h|]; try reflexivity;
    destruct (text_of h); reflexivity].
  rewrite !flat_map_app. cbn [flat_map].
  change (extension_bytes s "CheckSpecVersion") with (@nil N). change (extension_bytes s "CheckTxVersion") with (@nil N).
  change (extension_bytes s "CheckGenesis") with (@nil N). change (extension_bytes s "CheckMortality") with (era_enc (sg_era s)).
  change (extension_bytes s "CheckNonce") with (compact_enc (sg_nonce s)).
  change (additional_bytes s "CheckSpecVersion") with (le_bytes 4 (sg_version s)). change (additional_bytes s "CheckTxVersion") with (le_bytes 4 (sg_tx_version s)).
  change (additional_bytes s "CheckGenesis") with (sg_genesis s). change (additional_bytes s "CheckMortality") with (sg_block s).
  change (additional_bytes s "CheckNonce") with (@nil N).
  assert (H1 : flat_map (extension_bytes s) (if hashed then ["CheckMetadataHash"] else []) =
    if hashed then [match sg_metadata_hash s with None => 0%N | Some _ => 1%N end] else []).
  { destruct hashed; [|reflexivity]. cbn [flat_map]. rewrite app_nil_r.
    change (extension_bytes s "CheckMetadataHash") with (match sg_metadata_hash s with None => [0%N] | Some _ => [1%N] end). destruct (sg_metadata_hash s); reflexivity. }
  assert (H2 : flat_map (additional_bytes s) (if hashed then ["CheckMetadataHash"] else []) =
    if hashed then match sg_metadata_hash s with None => [0%N] | Some h => 1%N :: h end else []).
  { destruct hashed; [|reflexivity]. cbn [flat_map]. rewrite app_nil_r. reflexivity. }
  rewrite H1, H2.
  assert (H3 : extension_bytes s (if asset then "ChargeAssetTxPayment" else "ChargeTransactionPayment") =
    compact_enc (sg_tip s) ++ (if asset then [0%N] else [])) by (destruct asset; [|rewrite app_nil_r]; reflexivity).
  assert (H4 : additional_bytes s (if asset then "ChargeAssetTxPayment" else "ChargeTransactionPayment") = []) by (destruct asset; reflexivity).
  rewrite H3, H4. cbn [app]. rewrite !app_nil_r, <- !app_assoc. reflexivity.
Qed.

Variable exts : list ext_meta.
Hypothesis md_types : m_types md = portable types.
Hypothesis usables : forall id, (id < N.of_nat (List.length types))%N -> usable types id.
Hypothesis is_call : m_call_ty md = inl call_ty.
Hypothesis is_transfer : transferb types call_ty i j name = true.
Hypothesis byte_i : (i < 256)%N.
Hypothesis byte_j : (j < 256)%N.
Hypothesis is_exts : m_signed_extensions md = inl exts.
Hypothesis usual : extensionsb types exts = true.
Hypothesis takers : takes exts = order.
Variable nv : spec_name_version.
Hypothesis is_spec : m_spec_name_version md = inl nv.
Hypothesis is_version : printed_spec_version nv = dec_string version.

Theorem really_seen : transfers_seen.
Proof.
  intros s g dest amount Hv Hp Hg Hb H32 Ha. 
  destruct (c76_transfer ME the_chain call_ty i j name exts nv s g dest amount (usable_acyclic usables) is_call
    (transferb_ok _ _ _ _ _ is_transfer) byte_i byte_j is_exts (extensionsb_ok _ _ usual) is_spec) as (call & xs & T1 & T2 & L); auto.
  { rewrite Hv. exact is_version. }
  exists call, xs. unfold transaction, transaction_unmarked in T1, T2. rewrite (the_chain_ok md_types) in T1, T2.
  pose proof (fun specs cn => usual_takes s specs cn exts takers) as U.
  rewrite (proj1 (U (ShortSpecs 0 0 "") "")) in T1, T2.
  split; [exact T1|]. split; [exact T2|]. intros b58 icon specs cn bits. destruct (L b58 icon specs cn bits) as (L1 & L2).
  split; [exact L1|]. rewrite L2. apply U.
Qed.

Hypothesis apart : told_apart types.
Theorem really_signed : transfers_signed.
Proof.
  intros s g dest amount Hv Hp Hg Hb H32 Ha b58 icon specs cn bits data call xs F1 F2 Hd Hdata T L1 L2.
  destruct (usual_takes s specs cn exts takers) as (U1 & U2). rewrite <- U1. rewrite <- U2 in L2. unfold parsed in T. rewrite <- (the_chain_ok md_types) in T.
  refine (c76_only_transfer ME the_chain call_ty i j name exts nv s g dest amount (usable_acyclic usables) is_call
    (transferb_ok _ _ _ _ _ is_transfer) byte_i byte_j is_exts (extensionsb_ok _ _ usual) is_spec _ Hp Hg Hb H32 Ha apart b58 icon specs cn bits data call xs F1 F2 Hd Hdata T L1 L2).
  rewrite Hv. exact is_version.
Qed.
End Real.

Definition extensions_list {ME} (l : list ext_meta + ME) : list ext_meta := match l with inl l => l | inr _ => [] end.
Definition name_version {ME} (x : spec_name_version + ME) : spec_name_version := match x with inl nv => nv | inr _ => SpecNameVersion "" [] end.

(** The metadata TestWestend (V14) of the repository, spec version 9111. *)
Definition westend_exts := Eval vm_compute in extensions_list (m_signed_extensions TestWestend.md).
Definition westend_nv := Eval vm_compute in name_version (m_spec_name_version TestWestend.md).
Lemma westend_md : m_types TestWestend.md = portable TestWestend.md_types.
Proof. unfold TestWestend.md. cbn [metadata_of_v14 m_types v14_types]. reflexivity. Qed.
Lemma westend_call : m_call_ty TestWestend.md = inl 267%N. Proof. vm_compute. reflexivity. Qed.
Lemma westend_is_exts : m_signed_extensions TestWestend.md = inl westend_exts. Proof. vm_compute. reflexivity. Qed.
Lemma westend_is_spec : m_spec_name_version TestWestend.md = inl westend_nv. Proof. vm_compute. reflexivity. Qed.
Lemma westend_usual : extensionsb TestWestend.md_types westend_exts = true. Proof. vm_compute. reflexivity. Qed.
Lemma westend_takes : takes westend_exts = order false false. Proof. vm_compute. reflexivity. Qed.
Lemma westend_version : printed_spec_version westend_nv = dec_string 9111. Proof. vm_compute. reflexivity. Qed.
Lemma westend_transfer_call : transferb TestWestend.md_types 267 4 0 "transfer" = true. Proof. vm_compute. reflexivity. Qed.
Lemma westend_transfer_keep_alive_call : transferb TestWestend.md_types 267 4 3 "transfer_keep_alive" = true. Proof. vm_compute. reflexivity. Qed.

Theorem c76_westend : transfers_seen TestWestend.md 4 0 9111 "transfer" false false /\ transfers_signed TestWestend.md 4 0 9111 "transfer" false false /\
  transfers_seen TestWestend.md 4 3 9111 "transfer_keep_alive" false false /\ transfers_signed TestWestend.md 4 3 9111 "transfer_keep_alive" false false.
Proof.
  refine (conj _ (conj _ (conj _ _))).
  - exact (really_seen _ _ _ _ _ _ _ _ _ _ westend_md PropWhole.westend_usable westend_call westend_transfer_call eq_refl eq_refl westend_is_exts westend_usual westend_takes _ westend_is_spec westend_version).
  - exact (really_signed _ _ _ _ _ _ _ _ _ _ westend_md PropWhole.westend_usable westend_call westend_transfer_call eq_refl eq_refl westend_is_exts westend_usual westend_takes _ westend_is_spec westend_version PropSee.westend_told_apart).
  - exact (really_seen _ _ _ _ _ _ _ _ _ _ westend_md PropWhole.westend_usable westend_call westend_transfer_keep_alive_call eq_refl eq_refl westend_is_exts westend_usual westend_takes _ westend_is_spec westend_version).
  - exact (really_signed _ _ _ _ _ _ _ _ _ _ westend_md PropWhole.westend_usable westend_call westend_transfer_keep_alive_call eq_refl eq_refl westend_is_exts westend_usual westend_takes _ westend_is_spec westend_version PropSee.westend_told_apart).
Qed.
Print Assumptions c76_westend.

(** The metadata TestPolkadot9430 (V14) of the repository, spec version 9430. *)
Definition polkadot9430_exts := Eval vm_compute in extensions_list (m_signed_extensions TestPolkadot9430.md).
Definition polkadot9430_nv := Eval vm_compute in name_version (m_spec_name_version TestPolkadot9430.md).
Lemma polkadot9430_md : m_types TestPolkadot9430.md = portable TestPolkadot9430.md_types.
Proof. unfold TestPolkadot9430.md. cbn [metadata_of_v14 m_types v14_types]. reflexivity. Qed.
Lemma polkadot9430_call : m_call_ty TestPolkadot9430.md = inl 79%N. Proof. vm_compute. reflexivity. Qed.
Lemma polkadot9430_is_exts : m_signed_extensions TestPolkadot9430.md = inl polkadot9430_exts. Proof. vm_compute. reflexivity. Qed.
Lemma polkadot9430_is_spec : m_spec_name_version TestPolkadot9430.md = inl polkadot9430_nv. Proof. vm_compute. reflexivity. Qed.
Lemma polkadot9430_usual : extensionsb TestPolkadot9430.md_types polkadot9430_exts = true. Proof. vm_compute. reflexivity. Qed.
Lemma polkadot9430_takes : takes polkadot9430_exts = order false false. Proof. vm_compute. reflexivity. Qed.
Lemma polkadot9430_version : printed_spec_version polkadot9430_nv = dec_string 9430. Proof. vm_compute. reflexivity. Qed.
Lemma polkadot9430_apart : told_apart TestPolkadot9430.md_types. Proof. apply PropSee.apart_check_ok. vm_compute. reflexivity. Qed.
Lemma polkadot9430_transfer_call : transferb TestPolkadot9430.md_types 79 5 7 "transfer" = true. Proof. vm_compute. reflexivity. Qed.
Lemma polkadot9430_transfer_keep_alive_call : transferb TestPolkadot9430.md_types 79 5 3 "transfer_keep_alive" = true. Proof. vm_compute. reflexivity. Qed.
Lemma polkadot9430_transfer_allow_death_call : transferb TestPolkadot9430.md_types 79 5 0 "transfer_allow_death" = true. Proof. vm_compute. reflexivity. Qed.

Theorem c76_polkadot9430 : transfers_seen TestPolkadot9430.md 5 7 9430 "transfer" false false /\ transfers_signed TestPolkadot9430.md 5 7 9430 "transfer" false false /\
  transfers_seen TestPolkadot9430.md 5 3 9430 "transfer_keep_alive" false false /\ transfers_signed TestPolkadot9430.md 5 3 9430 "transfer_keep_alive" false false /\
  transfers_seen TestPolkadot9430.md 5 0 9430 "transfer_allow_death" false false /\ transfers_signed TestPolkadot9430.md 5 0 9430 "transfer_allow_death" false false.
Proof.
  refine (conj _ (conj _ (conj _ (conj _ (conj _ _))))).
  - exact (really_seen _ _ _ _ _ _ _ _ _ _ polkadot9430_md PropReal.polkadot9430_usable polkadot9430_call polkadot9430_transfer_call eq_refl eq_refl polkadot9430_is_exts polkadot9430_usual polkadot9430_takes _ polkadot9430_is_spec polkadot9430_version).
  - exact (really_signed _ _ _ _ _ _ _ _ _ _ polkadot9430_md PropReal.polkadot9430_usable polkadot9430_call polkadot9430_transfer_call eq_refl eq_refl polkadot9430_is_exts polkadot9430_usual polkadot9430_takes _ polkadot9430_is_spec polkadot9430_version polkadot9430_apart).
  - exact (really_seen _ _ _ _ _ _ _ _ _ _ polkadot9430_md PropReal.polkadot9430_usable polkadot9430_call polkadot9430_transfer_keep_alive_call eq_refl eq_refl polkadot9430_is_exts polkadot9430_usual polkadot9430_takes _ polkadot9430_is_spec polkadot9430_version).
  - exact (really_signed _ _ _ _ _ _ _ _ _ _ polkadot9430_md PropReal.polkadot9430_usable polkadot9430_call polkadot9430_transfer_keep_alive_call eq_refl eq_refl polkadot9430_is_exts polkadot9430_usual polkadot9430_takes _ polkadot9430_is_spec polkadot9430_version polkadot9430_apart).
  - exact (really_seen _ _ _ _ _ _ _ _ _ _ polkadot9430_md PropReal.polkadot9430_usable polkadot9430_call polkadot9430_transfer_allow_death_call eq_refl eq_refl polkadot9430_is_exts polkadot9430_usual polkadot9430_takes _ polkadot9430_is_spec polkadot9430_version).
  - exact (really_signed _ _ _ _ _ _ _ _ _ _ polkadot9430_md PropReal.polkadot9430_usable polkadot9430_call polkadot9430_transfer_allow_death_call eq_refl eq_refl polkadot9430_is_exts polkadot9430_usual polkadot9430_takes _ polkadot9430_is_spec polkadot9430_version polkadot9430_apart).
Qed.
Print Assumptions c76_polkadot9430.

(** The metadata TestPolkadot15 (V15) of the repository, spec version 1000001. *)
Definition polkadot15_exts := Eval vm_compute in extensions_list (m_signed_extensions TestPolkadot15.md).
Definition polkadot15_nv := Eval vm_compute in name_version (m_spec_name_version TestPolkadot15.md).
Lemma polkadot15_md : m_types TestPolkadot15.md = portable TestPolkadot15.md_types.
Proof. unfold TestPolkadot15.md. cbn [metadata_of_v15 m_types v15_types]. reflexivity. Qed.
Lemma polkadot15_call : m_call_ty TestPolkadot15.md = inl 68%N. Proof. vm_compute. reflexivity. Qed.
Lemma polkadot15_is_exts : m_signed_extensions TestPolkadot15.md = inl polkadot15_exts. Proof. vm_compute. reflexivity. Qed.
Lemma polkadot15_is_spec : m_spec_name_version TestPolkadot15.md = inl polkadot15_nv. Proof. vm_compute. reflexivity. Qed.
Lemma polkadot15_usual : extensionsb TestPolkadot15.md_types polkadot15_exts = true. Proof. vm_compute. reflexivity. Qed.
Lemma polkadot15_takes : takes polkadot15_exts = order false false. Proof. vm_compute. reflexivity. Qed.
Lemma polkadot15_version : printed_spec_version polkadot15_nv = dec_string 1000001. Proof. vm_compute. reflexivity. Qed.
Lemma polkadot15_apart : told_apart TestPolkadot15.md_types. Proof. apply PropSee.apart_check_ok. vm_compute. reflexivity. Qed.
Lemma polkadot15_transfer_call : transferb TestPolkadot15.md_types 68 5 7 "transfer" = true. Proof. vm_compute. reflexivity. Qed.
Lemma polkadot15_transfer_keep_alive_call : transferb TestPolkadot15.md_types 68 5 3 "transfer_keep_alive" = true. Proof. vm_compute. reflexivity. Qed.
Lemma polkadot15_transfer_allow_death_call : transferb TestPolkadot15.md_types 68 5 0 "transfer_allow_death" = true. Proof. vm_compute. reflexivity. Qed.

Theorem c76_polkadot15 : transfers_seen TestPolkadot15.md 5 7 1000001 "transfer" false false /\ transfers_signed TestPolkadot15.md 5 7 1000001 "transfer" false false /\
  transfers_seen TestPolkadot15.md 5 3 1000001 "transfer_keep_alive" false false /\ transfers_signed TestPolkadot15.md 5 3 1000001 "transfer_keep_alive" false false /\
  transfers_seen TestPolkadot15.md 5 0 1000001 "transfer_allow_death" false false /\ transfers_signed TestPolkadot15.md 5 0 1000001 "transfer_allow_death" false false.
Proof.
  refine (conj _ (conj _ (conj _ (conj _ (conj _ _))))).
  - exact (really_seen _ _ _ _ _ _ _ _ _ _ polkadot15_md PropReal.polkadot15_usable polkadot15_call polkadot15_transfer_call eq_refl eq_refl polkadot15_is_exts polkadot15_usual polkadot15_takes _ polkadot15_is_spec polkadot15_version).
  - exact (really_signed _ _ _ _ _ _ _ _ _ _ polkadot15_md PropReal.polkadot15_usable polkadot15_call polkadot15_transfer_call eq_refl eq_refl polkadot15_is_exts polkadot15_usual polkadot15_takes _ polkadot15_is_spec polkadot15_version polkadot15_apart).
  - exact (really_seen _ _ _ _ _ _ _ _ _ _ polkadot15_md PropReal.polkadot15_usable polkadot15_call polkadot15_transfer_keep_alive_call eq_refl eq_refl polkadot15_is_exts polkadot15_usual polkadot15_takes _ polkadot15_is_spec polkadot15_version).
  - exact (really_signed _ _ _ _ _ _ _ _ _ _ polkadot15_md PropReal.polkadot15_usable polkadot15_call polkadot15_transfer_keep_alive_call eq_refl eq_refl polkadot15_is_exts polkadot15_usual polkadot15_takes _ polkadot15_is_spec polkadot15_version polkadot15_apart).
  - exact (really_seen _ _ _ _ _ _ _ _ _ _ polkadot15_md PropReal.polkadot15_usable polkadot15_call polkadot15_transfer_allow_death_call eq_refl eq_refl polkadot15_is_exts polkadot15_usual polkadot15_takes _ polkadot15_is_spec polkadot15_version).
  - exact (really_signed _ _ _ _ _ _ _ _ _ _ polkadot15_md PropReal.polkadot15_usable polkadot15_call polkadot15_transfer_allow_death_call eq_refl eq_refl polkadot15_is_exts polkadot15_usual polkadot15_takes _ polkadot15_is_spec polkadot15_version polkadot15_apart).
Qed.
Print Assumptions c76_polkadot15.

(** The metadata TestUnchecked15 (V15) of the repository, spec version 1003003. *)
Definition polkadot1003003_exts := Eval vm_compute in extensions_list (m_signed_extensions TestUnchecked15.md).
Definition polkadot1003003_nv := Eval vm_compute in name_version (m_spec_name_version TestUnchecked15.md).
Lemma polkadot1003003_md : m_types TestUnchecked15.md = portable TestUnchecked15.md_types.
Proof. unfold TestUnchecked15.md. cbn [metadata_of_v15 m_types v15_types]. reflexivity. Qed.
Lemma polkadot1003003_call : m_call_ty TestUnchecked15.md = inl 93%N. Proof. vm_compute. reflexivity. Qed.
Lemma polkadot1003003_is_exts : m_signed_extensions TestUnchecked15.md = inl polkadot1003003_exts. Proof. vm_compute. reflexivity. Qed.
Lemma polkadot1003003_is_spec : m_spec_name_version TestUnchecked15.md = inl polkadot1003003_nv. Proof. vm_compute. reflexivity. Qed.
Lemma polkadot1003003_usual : extensionsb TestUnchecked15.md_types polkadot1003003_exts = true. Proof. vm_compute. reflexivity. Qed.
Lemma polkadot1003003_takes : takes polkadot1003003_exts = order false true. Proof. vm_compute. reflexivity. Qed.
Lemma polkadot1003003_version : printed_spec_version polkadot1003003_nv = dec_string 1003003. Proof. vm_compute. reflexivity. Qed.
Lemma polkadot1003003_apart : told_apart TestUnchecked15.md_types. Proof. apply PropSee.apart_check_ok. vm_compute. reflexivity. Qed.
Lemma polkadot1003003_transfer_keep_alive_call : transferb TestUnchecked15.md_types 93 5 3 "transfer_keep_alive" = true. Proof. vm_compute. reflexivity. Qed.
Lemma polkadot1003003_transfer_allow_death_call : transferb TestUnchecked15.md_types 93 5 0 "transfer_allow_death" = true. Proof. vm_compute. reflexivity. Qed.

Theorem c76_polkadot1003003 :
  transfers_seen TestUnchecked15.md 5 3 1003003 "transfer_keep_alive" false true /\ transfers_signed TestUnchecked15.md 5 3 1003003 "transfer_keep_alive" false true /\
  transfers_seen TestUnchecked15.md 5 0 1003003 "transfer_allow_death" false true /\ transfers_signed TestUnchecked15.md 5 0 1003003 "transfer_allow_death" false true.
Proof.
  refine (conj _ (conj _ (conj _ _))).
  - exact (really_seen _ _ _ _ _ _ _ _ _ _ polkadot1003003_md PropReal.unchecked15_usable polkadot1003003_call polkadot1003003_transfer_keep_alive_call eq_refl eq_refl polkadot1003003_is_exts polkadot1003003_usual polkadot1003003_takes _ polkadot1003003_is_spec polkadot1003003_version).
  - exact (really_signed _ _ _ _ _ _ _ _ _ _ polkadot1003003_md PropReal.unchecked15_usable polkadot1003003_call polkadot1003003_transfer_keep_alive_call eq_refl eq_refl polkadot1003003_is_exts polkadot1003003_usual polkadot1003003_takes _ polkadot1003003_is_spec polkadot1003003_version polkadot1003003_apart).
  - exact (really_seen _ _ _ _ _ _ _ _ _ _ polkadot1003003_md PropReal.unchecked15_usable polkadot1003003_call polkadot1003003_transfer_allow_death_call eq_refl eq_refl polkadot1003003_is_exts polkadot1003003_usual polkadot1003003_takes _ polkadot1003003_is_spec polkadot1003003_version).
  - exact (really_signed _ _ _ _ _ _ _ _ _ _ polkadot1003003_md PropReal.unchecked15_usable polkadot1003003_call polkadot1003003_transfer_allow_death_call eq_refl eq_refl polkadot1003003_is_exts polkadot1003003_usual polkadot1003003_takes _ polkadot1003003_is_spec polkadot1003003_version polkadot1003003_apart).
Qed.
Print Assumptions c76_polkadot1003003.

(** The metadata TestAstar (V14) of the repository, spec version 66. *)
Definition astar_exts := Eval vm_compute in extensions_list (m_signed_extensions TestAstar.md).
Definition astar_nv := Eval vm_compute in name_version (m_spec_name_version TestAstar.md).
Lemma astar_md : m_types TestAstar.md = portable TestAstar.md_types.
Proof. unfold TestAstar.md. cbn [metadata_of_v14 m_types v14_types]. reflexivity. Qed.
Lemma astar_call : m_call_ty TestAstar.md = inl 164%N. Proof. vm_compute. reflexivity. Qed.
Lemma astar_is_exts : m_signed_extensions TestAstar.md = inl astar_exts. Proof. vm_compute. reflexivity. Qed.
Lemma astar_is_spec : m_spec_name_version TestAstar.md = inl astar_nv. Proof. vm_compute. reflexivity. Qed.
Lemma astar_usual : extensionsb TestAstar.md_types astar_exts = true. Proof. vm_compute. reflexivity. Qed.
Lemma astar_takes : takes astar_exts = order false false. Proof. vm_compute. reflexivity. Qed.
Lemma astar_version : printed_spec_version astar_nv = dec_string 66. Proof. vm_compute. reflexivity. Qed.
Lemma astar_apart : told_apart TestAstar.md_types. Proof. apply PropSee.apart_check_ok. vm_compute. reflexivity. Qed.
Lemma astar_transfer_call : transferb TestAstar.md_types 164 31 7 "transfer" = true. Proof. vm_compute. reflexivity. Qed.
Lemma astar_transfer_keep_alive_call : transferb TestAstar.md_types 164 31 3 "transfer_keep_alive" = true. Proof. vm_compute. reflexivity. Qed.
Lemma astar_transfer_allow_death_call : transferb TestAstar.md_types 164 31 0 "transfer_allow_death" = true. Proof. vm_compute. reflexivity. Qed.

Theorem c76_astar : transfers_seen TestAstar.md 31 7 66 "transfer" false false /\ transfers_signed TestAstar.md 31 7 66 "transfer" false false /\
  transfers_seen TestAstar.md 31 3 66 "transfer_keep_alive" false false /\ transfers_signed TestAstar.md 31 3 66 "transfer_keep_alive" false false /\
  transfers_seen TestAstar.md 31 0 66 "transfer_allow_death" false false /\ transfers_signed TestAstar.md 31 0 66 "transfer_allow_death" false false.
Proof.
  refine (conj _ (conj _ (conj _ (conj _ (conj _ _))))).
  - exact (really_seen _ _ _ _ _ _ _ _ _ _ astar_md PropReal.astar_usable astar_call astar_transfer_call eq_refl eq_refl astar_is_exts astar_usual astar_takes _ astar_is_spec astar_version).
  - exact (really_signed _ _ _ _ _ _ _ _ _ _ astar_md PropReal.astar_usable astar_call astar_transfer_call eq_refl eq_refl astar_is_exts astar_usual astar_takes _ astar_is_spec astar_version astar_apart).
  - exact (really_seen _ _ _ _ _ _ _ _ _ _ astar_md PropReal.astar_usable astar_call astar_transfer_keep_alive_call eq_refl eq_refl astar_is_exts astar_usual astar_takes _ astar_is_spec astar_version).
  - exact (really_signed _ _ _ _ _ _ _ _ _ _ astar_md PropReal.astar_usable astar_call astar_transfer_keep_alive_call eq_refl eq_refl astar_is_exts astar_usual astar_takes _ astar_is_spec astar_version astar_apart).
  - exact (really_seen _ _ _ _ _ _ _ _ _ _ astar_md PropReal.astar_usable astar_call astar_transfer_allow_death_call eq_refl eq_refl astar_is_exts astar_usual astar_takes _ astar_is_spec astar_version).
  - exact (really_signed _ _ _ _ _ _ _ _ _ _ astar_md PropReal.astar_usable astar_call astar_transfer_allow_death_call eq_refl eq_refl astar_is_exts astar_usual astar_takes _ astar_is_spec astar_version astar_apart).
Qed.
Print Assumptions c76_astar.

(** The metadata TestBifrost (V14) of the repository, spec version 982. *)
Definition bifrost_exts := Eval vm_compute in extensions_list (m_signed_extensions TestBifrost.md).
Definition bifrost_nv := Eval vm_compute in name_version (m_spec_name_version TestBifrost.md).
Lemma bifrost_md : m_types TestBifrost.md = portable TestBifrost.md_types.
Proof. unfold TestBifrost.md. cbn [metadata_of_v14 m_types v14_types]. reflexivity. Qed.
Lemma bifrost_call : m_call_ty TestBifrost.md = inl 58%N. Proof. vm_compute. reflexivity. Qed.
Lemma bifrost_is_exts : m_signed_extensions TestBifrost.md = inl bifrost_exts. Proof. vm_compute. reflexivity. Qed.
Lemma bifrost_is_spec : m_spec_name_version TestBifrost.md = inl bifrost_nv. Proof. vm_compute. reflexivity. Qed.
Lemma bifrost_usual : extensionsb TestBifrost.md_types bifrost_exts = true. Proof. vm_compute. reflexivity. Qed.
Lemma bifrost_takes : takes bifrost_exts = order false false. Proof. vm_compute. reflexivity. Qed.
Lemma bifrost_version : printed_spec_version bifrost_nv = dec_string 982. Proof. vm_compute. reflexivity. Qed.
Lemma bifrost_apart : told_apart TestBifrost.md_types. Proof. apply PropSee.apart_check_ok. vm_compute. reflexivity. Qed.
Lemma bifrost_transfer_call : transferb TestBifrost.md_types 58 10 7 "transfer" = true. Proof. vm_compute. reflexivity. Qed.
Lemma bifrost_transfer_keep_alive_call : transferb TestBifrost.md_types 58 10 3 "transfer_keep_alive" = true. Proof. vm_compute. reflexivity. Qed.
Lemma bifrost_transfer_allow_death_call : transferb TestBifrost.md_types 58 10 0 "transfer_allow_death" = true. Proof. vm_compute. reflexivity. Qed.

Theorem c76_bifrost : transfers_seen TestBifrost.md 10 7 982 "transfer" false false /\ transfers_signed TestBifrost.md 10 7 982 "transfer" false false /\
  transfers_seen TestBifrost.md 10 3 982 "transfer_keep_alive" false false /\ transfers_signed TestBifrost.md 10 3 982 "transfer_keep_alive" false false /\
  transfers_seen TestBifrost.md 10 0 982 "transfer_allow_death" false false /\ transfers_signed TestBifrost.md 10 0 982 "transfer_allow_death" false false.
Proof.
  refine (conj _ (conj _ (conj _ (conj _ (conj _ _))))).
  - exact (really_seen _ _ _ _ _ _ _ _ _ _ bifrost_md PropReal.bifrost_usable bifrost_call bifrost_transfer_call eq_refl eq_refl bifrost_is_exts bifrost_usual bifrost_takes _ bifrost_is_spec bifrost_version).
  - exact (really_signed _ _ _ _ _ _ _ _ _ _ bifrost_md PropReal.bifrost_usable bifrost_call bifrost_transfer_call eq_refl eq_refl bifrost_is_exts bifrost_usual bifrost_takes _ bifrost_is_spec bifrost_version bifrost_apart).
  - exact (really_seen _ _ _ _ _ _ _ _ _ _ bifrost_md PropReal.bifrost_usable bifrost_call bifrost_transfer_keep_alive_call eq_refl eq_refl bifrost_is_exts bifrost_usual bifrost_takes _ bifrost_is_spec bifrost_version).
  - exact (really_signed _ _ _ _ _ _ _ _ _ _ bifrost_md PropReal.bifrost_usable bifrost_call bifrost_transfer_keep_alive_call eq_refl eq_refl bifrost_is_exts bifrost_usual bifrost_takes _ bifrost_is_spec bifrost_version bifrost_apart).
  - exact (really_seen _ _ _ _ _ _ _ _ _ _ bifrost_md PropReal.bifrost_usable bifrost_call bifrost_transfer_allow_death_call eq_refl eq_refl bifrost_is_exts bifrost_usual bifrost_takes _ bifrost_is_spec bifrost_version).
  - exact (really_signed _ _ _ _ _ _ _ _ _ _ bifrost_md PropReal.bifrost_usable bifrost_call bifrost_transfer_allow_death_call eq_refl eq_refl bifrost_is_exts bifrost_usual bifrost_takes _ bifrost_is_spec bifrost_version bifrost_apart).
Qed.
Print Assumptions c76_bifrost.

(** The metadata TestStatemint (V15) of the repository, spec version 1002000. *)
Definition statemint_exts := Eval vm_compute in extensions_list (m_signed_extensions TestStatemint.md).
Definition statemint_nv := Eval vm_compute in name_version (m_spec_name_version TestStatemint.md).
Lemma statemint_md : m_types TestStatemint.md = portable TestStatemint.md_types.
Proof. unfold TestStatemint.md. cbn [metadata_of_v15 m_types v15_types]. reflexivity. Qed.
Lemma statemint_call : m_call_ty TestStatemint.md = inl 343%N. Proof. vm_compute. reflexivity. Qed.
Lemma statemint_is_exts : m_signed_extensions TestStatemint.md = inl statemint_exts. Proof. vm_compute. reflexivity. Qed.
Lemma statemint_is_spec : m_spec_name_version TestStatemint.md = inl statemint_nv. Proof. vm_compute. reflexivity. Qed.
Lemma statemint_usual : extensionsb TestStatemint.md_types statemint_exts = true. Proof. vm_compute. reflexivity. Qed.
Lemma statemint_takes : takes statemint_exts = order true false. Proof. vm_compute. reflexivity. Qed.
Lemma statemint_version : printed_spec_version statemint_nv = dec_string 1002000. Proof. vm_compute. reflexivity. Qed.
Lemma statemint_apart : told_apart TestStatemint.md_types. Proof. apply PropSee.apart_check_ok. vm_compute. reflexivity. Qed.
Lemma statemint_transfer_keep_alive_call : transferb TestStatemint.md_types 343 10 3 "transfer_keep_alive" = true. Proof. vm_compute. reflexivity. Qed.
Lemma statemint_transfer_allow_death_call : transferb TestStatemint.md_types 343 10 0 "transfer_allow_death" = true. Proof. vm_compute. reflexivity. Qed.

Theorem c76_statemint : transfers_seen TestStatemint.md 10 3 1002000 "transfer_keep_alive" true false /\ transfers_signed TestStatemint.md 10 3 1002000 "transfer_keep_alive" true false /\
  transfers_seen TestStatemint.md 10 0 1002000 "transfer_allow_death" true false /\ transfers_signed TestStatemint.md 10 0 1002000 "transfer_allow_death" true false.
Proof.
  refine (conj _ (conj _ (conj _ _))).
  - exact (really_seen _ _ _ _ _ _ _ _ _ _ statemint_md PropWhole.statemint_usable statemint_call statemint_transfer_keep_alive_call eq_refl eq_refl statemint_is_exts statemint_usual statemint_takes _ statemint_is_spec statemint_version).
  - exact (really_signed _ _ _ _ _ _ _ _ _ _ statemint_md PropWhole.statemint_usable statemint_call statemint_transfer_keep_alive_call eq_refl eq_refl statemint_is_exts statemint_usual statemint_takes _ statemint_is_spec statemint_version statemint_apart).
  - exact (really_seen _ _ _ _ _ _ _ _ _ _ statemint_md PropWhole.statemint_usable statemint_call statemint_transfer_allow_death_call eq_refl eq_refl statemint_is_exts statemint_usual statemint_takes _ statemint_is_spec statemint_version).
  - exact (really_signed _ _ _ _ _ _ _ _ _ _ statemint_md PropWhole.statemint_usable statemint_call statemint_transfer_allow_death_call eq_refl eq_refl statemint_is_exts statemint_usual statemint_takes _ statemint_is_spec statemint_version statemint_apart).
Qed.
Print Assumptions c76_statemint.

(** The transfer of the test at tests.rs:363-394 is of this kind. *)
Definition bob : bytes := TestWestend.unhex "8eaf04151687736326c9fea17e25fc5287613693c912909cb226aa4794f26a48".
Definition example_signing : signing := Signing (Mortal 64 61) 261 10000000 9111 7
  (TestWestend.unhex "e143f23803ac50e8f6f8e62695d1ce9e4e1d68aa36c1cd2cfd15340213f3423e")
  (TestWestend.unhex "98a8ee9e389043cd8a9954b254d822d34138b9ae97d3b7f50dc6781b13df8d84") None.

Lemma bytes_checked l : is_bytesb l = true -> is_bytes l.
Proof. unfold is_bytesb, is_bytes. rewrite forallb_forall, Forall_forall. intros H x Hx. apply N.ltb_lt. exact (H x Hx). Qed.

Example c76_example : proper example_signing /\ sg_version example_signing = 9111%N /\ is_bytes bob /\ List.length bob = 32%nat /\
  payload (4%N :: 3%N :: 0%N :: bob ++ compact_enc 100000000) (signed_bytes false false example_signing) =
  TestWestend.unhex "9c0403008eaf04151687736326c9fea17e25fc5287613693c912909cb226aa4794f26a480284d717d5031504025a62029723000007000000e143f23803ac50e8f6f8e62695d1ce9e4e1d68aa36c1cd2cfd15340213f3423e98a8ee9e389043cd8a9954b254d822d34138b9ae97d3b7f50dc6781b13df8d84" /\
  (transfer_lines Address.address (ShortSpecs 42 12 "WND") "transfer_keep_alive" bob 100000000 ++
    signed_lines false false (ShortSpecs 42 12 "WND") "westend" example_signing) =
  ["Pallet: Balances";
   "  Call: transfer_keep_alive";
   "    Field Name: dest";
   "      Enum";
   "        Enum Variant Name: Id";
   "          Id: 5FHneW46xGXgs5mUiveU4sbTyGBzmstUspZC92UhjJM694ty";
   "    Field Name: value";
   "      Balance: 100.000000 uWND";
   "Era: Mortal, phase: 61, period: 64";
   "Nonce: 261";
   "Tip: 10.000000 uWND";
   "Chain: westend9111";
   "Tx Version: 7";
   "Genesis Hash: e143f23803ac50e8f6f8e62695d1ce9e4e1d68aa36c1cd2cfd15340213f3423e";
   "Block Hash: 98a8ee9e389043cd8a9954b254d822d34138b9ae97d3b7f50dc6781b13df8d84"].
Proof.
  split; [|split; [reflexivity|split; [apply bytes_checked; reflexivity|split; [reflexivity|split; [reflexivity|vm_compute; reflexivity] ] ] ] ].
  unfold proper. repeat (split; [first [apply bytes_checked; reflexivity | reflexivity]|]). split; [discriminate|exact I].
Qed.

(** Signing the hash of the metadata, too (Polkadot 1003003). *)
Definition hash_signing : signing := Signing (Mortal 64 61) 261 10000000 1003003 26 (sg_genesis example_signing) (sg_block example_signing)
  (Some (TestWestend.unhex "03ac50e8f6f8e62695d1ce9e4e1d68aa36c1cd2cfd15340213f3423e98a8ee9e")).
Example c76_example_hash : proper hash_signing /\ sg_version hash_signing = 1003003%N /\
  signed_bytes false true hash_signing =
  TestWestend.unhex "d5031504025a620201fb4d0f001a000000e143f23803ac50e8f6f8e62695d1ce9e4e1d68aa36c1cd2cfd15340213f3423e98a8ee9e389043cd8a9954b254d822d34138b9ae97d3b7f50dc6781b13df8d840103ac50e8f6f8e62695d1ce9e4e1d68aa36c1cd2cfd15340213f3423e98a8ee9e" /\
  signed_lines false true (ShortSpecs 0 10 "DOT") "polkadot" hash_signing =
  ["Era: Mortal, phase: 61, period: 64";
   "Nonce: 261";
   "Tip: 1.0000000 mDOT";
   "Struct: 1 field(s)";
   "  Field Name: mode";
   "    Enum";
   "      Enum Variant Name: Enabled";
   "Chain: polkadot1003003";
   "Tx Version: 26";
   "Genesis Hash: e143f23803ac50e8f6f8e62695d1ce9e4e1d68aa36c1cd2cfd15340213f3423e";
   "Block Hash: 98a8ee9e389043cd8a9954b254d822d34138b9ae97d3b7f50dc6781b13df8d84";
   "Enum";
   "  Enum Variant Name: Some";
   "    Sequence u8: 03ac50e8f6f8e62695d1ce9e4e1d68aa36c1cd2cfd15340213f3423e98a8ee9e"].
Proof.
  split; [|split; [reflexivity|split; [reflexivity|vm_compute; reflexivity] ] ].
  unfold proper. repeat (split; [first [apply bytes_checked; reflexivity | reflexivity]|]). split; [discriminate|].
  split; [apply bytes_checked; reflexivity|reflexivity].
Qed.
