(** C77 for chains whose metadata is in the repository: the bytes and the lines written out. *)
From Coq Require Import Lia.
From Verif Require Import Base Compact Types Indicators Decode Sign Unchecked Meta Balance Cards Spec SpecCards SpecSee SpecFault SpecTransfer SpecIncluded SpecUnchecked Api ApiSign
  CheckWf CheckUsable PropTransfer PropIncluded PropTransferReal.
From Verif Require TestWestend TestPolkadot9430 TestPolkadot15 TestUnchecked15 TestAstar TestBifrost TestStatemint Address PropWhole PropReal PropSee.
Local Open Scope string_scope.
Local Open Scope list_scope.

(** ** Checks *)

Section Checks.
Variable types : list ty.

Definition kind_eqb (a b : fixed_kind) : bool :=
  match a, b with
  | KSigEd25519, KSigEd25519 | KSigSr25519, KSigSr25519 | KSigEcdsa, KSigEcdsa => true
  | _, _ => false
  end.
Definition kind_name (k : fixed_kind) : string :=
  match k with KSigEd25519 => "Ed25519" | KSigSr25519 => "Sr25519" | KSigEcdsa => "Ecdsa" | _ => "" end.
(** Bare, or in an enum with this name. *)
Definition form_of (bare : bool) (k : fixed_kind) : option string := if bare then None else Some (kind_name k).
Definition signatureb (bare : bool) (id n : N) (k : fixed_kind) : bool :=
  match lookup types id with
  | Some t => match classify t, t_def t with
      | SpMultiSig, TVariant l => match by_index l n with
          | Some v => match v_fields v with
              | [f] => match bare_signature types f with
                  | Some k' => bare && kind_eqb k' k
                  | None => negb bare && String.eqb (v_name v) (kind_name k) && noname f &&
                      recognisedb types (f_ty f) (fun s => match s with SpRaw k' => kind_eqb k' k | _ => false end)
                  end
              | _ => false end
          | None => false end
      | _, _ => false end
  | None => false
  end.
Definition namedb (m : ext_meta) : bool :=
  match lookup types (em_ty m) with Some t => String.eqb (List.last (t_path t) "") (em_identifier m) | None => false end.
Fixpoint ids_eqb (a b : list N) : bool :=
  match a, b with
  | [], [] => true
  | x :: a, y :: b => (x =? y)%N && ids_eqb a b
  | _, _ => false
  end.
Definition extrab (id : N) (l : list ext_meta) : bool :=
  ordinaryb types id (fun d => match d with TTuple ids => ids_eqb ids (map em_ty l) | _ => false end).
(** Ed25519, Sr25519 and Ecdsa. *)
Definition kinds : list (N * fixed_kind) := [(0%N, KSigEd25519); (1%N, KSigSr25519); (2%N, KSigEcdsa)].
Definition extrinsicb (bare : bool) (p : extrinsic_params) (l : list ext_meta) : bool :=
  addressb types (ep_address p) && forallb (fun x => signatureb bare (ep_signature p) (fst x) (snd x)) kinds && extrab (ep_extra p) l && forallb namedb l.

Lemma kind_eqb_ok a b : kind_eqb a b = true -> a = b /\ is_signature b.
Proof. unfold is_signature. destruct a, b; intros H; try discriminate H; auto. Qed.
Lemma signatureb_ok bare id n k : signatureb bare id n k = true -> signature_type types id n (form_of bare k) k.
Proof.
  unfold signatureb, signature_type. destruct (lookup types id) as [t|] eqn:El; [|discriminate].
  destruct (classify t) eqn:Ec; try discriminate. destruct (t_def t) as [|l| | | | | |] eqn:Ed; try discriminate.
  destruct (by_index l n) as [v|] eqn:Ei; [|discriminate]. destruct (v_fields v) as [|f [|? ?] ] eqn:Ef; try discriminate.
  destruct (bare_signature types f) as [k'|] eqn:Eb; intros H; exists t, l, v, f; rewrite Ec, Ed, Ef; repeat (split; [first [reflexivity|assumption]|]); unfold form_of.
  - apply andb_prop in H. destruct H as [-> H]. apply kind_eqb_ok in H. destruct H as [-> _]. exact Eb.
  - apply andb_prop in H. destruct H as [H H4]. apply andb_prop in H. destruct H as [H H3]. apply andb_prop in H. destruct H as [H1 H2].
    destruct bare; [discriminate|]. apply String.eqb_eq in H2.
    split; [exact Eb|]. split; [exact H2|]. split; [exact (noname_ok _ H3)|]. refine (recognisedb_ok _ _ _ _ _ H4).
    intros [ |k'| | | | |] Hk; try discriminate. apply kind_eqb_ok in Hk. destruct Hk as [-> _]. reflexivity.
Qed.
Lemma namedb_ok m : namedb m = true -> named_alike types m.
Proof. unfold namedb, named_alike. destruct (lookup types (em_ty m)) as [t|] eqn:E; [|discriminate]. intros H. apply String.eqb_eq in H. eauto. Qed.
Lemma ids_eqb_ok a : forall b, ids_eqb a b = true -> a = b.
Proof.
  induction a as [|x a IH]; intros [|y b] H; try discriminate; [reflexivity|]. cbn [ids_eqb] in H. apply andb_prop in H. destruct H as [H1 H2].
  apply N.eqb_eq in H1. rewrite H1, (IH _ H2). reflexivity.
Qed.
Lemma extrab_ok id l : extrab id l = true -> ordinary types id (TTuple (map em_ty l)).
Proof.
  intros H. apply ordinaryb_ok in H. destruct H as (d & H & Hd). destruct d; try discriminate. apply ids_eqb_ok in Hd. rewrite <- Hd. exact H.
Qed.
Lemma extrinsicb_ok bare p l n k : extensionsb types l = true -> extrinsicb bare p l = true -> In (n, k) kinds -> usual_extrinsic types p l n (form_of bare k) k.
Proof.
  unfold extrinsicb. intros Hu H Hin. apply andb_prop in H. destruct H as [H H4]. apply andb_prop in H. destruct H as [H H3].
  apply andb_prop in H. destruct H as [H1 H2]. rewrite forallb_forall in H2, H4.
  refine (conj _ (conj (addressb_ok _ _ H1) (conj (signatureb_ok _ _ _ _ (H2 _ Hin)) (conj (extrab_ok _ _ H3) (conj (extensionsb_ok _ _ Hu) _))))).
  { unfold kinds in Hin. unfold is_signature. cbn [In] in Hin. destruct Hin as [E|[E|[E|[] ] ] ]; injection E as _ <-; auto. }
  apply Forall_forall. intros m Hm. exact (namedb_ok m (H4 m Hm)).
Qed.
End Checks.

(** ** Bytes and lines *)

Definition extensions_in (asset hashed : bool) (s : signing) : bytes :=
  era_enc (sg_era s) ++ compact_enc (sg_nonce s) ++ compact_enc (sg_tip s) ++ (if asset then [0%N] else []) ++
  (if hashed then [match sg_metadata_hash s with None => 0%N | Some _ => 1%N end] else []).

(** Version 4 and signed: 132. *)
Definition extrinsic_of (asset hashed : bool) (s : signing) (sender : bytes) (n : N) (signature : bytes) (call : bytes) : bytes :=
  let content := 132%N :: 0%N :: sender ++ n :: signature ++ extensions_in asset hashed s ++ call in
  compact_enc (N.of_nat (List.length content)) ++ content.

(** [count]: the number of extensions of the chain, also of those without bytes. *)
Definition extensions_in_lines (count : string) (asset hashed : bool) (specs : short_specs) (s : signing) : list string :=
  ["Tuple: " ++ count ++ " element(s)";
   "  Era: " ++ era_text (sg_era s);
   "  Nonce: " ++ dec_string (sg_nonce s)]%string ++
  (if asset then ["  Struct: 2 field(s)"; "    Field Name: tip"; "      Tip Asset: " ++ dec_string (sg_tip s);
     "    Field Name: asset_id"; "      Enum"; "        Enum Variant Name: None"]
   else ["  Tip: " ++ money specs (sg_tip s)])%string ++
  (if hashed then ["  Struct: 1 field(s)"; "    Field Name: mode"; "      Enum";
     "        Enum Variant Name: " ++ match sg_metadata_hash s with None => "Disabled" | Some _ => "Enabled" end]%string
   else []).

Section Real.
Context {ME : Type}.
Variable md : metadata unit ME.
Variable types : list ty.
Variables (i j version : N) (name : string) (asset hashed bare : bool) (count : string).

Definition parsed_extrinsic (data : bytes) := result (decode_as_unchecked_extrinsic (slice_buffer data) md).

(** What is seen of a signed extrinsic. *)
Definition seen_as (b58 : fixed_kind -> bytes -> N -> string) icon specs chain_name bits (a sg e : ext pdata) (call : psdata pdata)
    (s : signing) (sender : bytes) (k : fixed_kind) (signature dest : bytes) (amount : N) : Prop :=
  map (show bits) (card_ext b58 icon specs chain_name a 0 true) =
    ["Enum";
     "  Enum Variant Name: Id";
     "    Id: " ++ b58 KAccountId32 sender (base58prefix specs)]%string /\
  map (show bits) (card_ext b58 icon specs chain_name sg 0 true) =
    (if bare then [signature_name k ++ ": " ++ hex_encode signature]
     else ["Enum"; "  Enum Variant Name: " ++ kind_name k; "    " ++ signature_name k ++ ": " ++ hex_encode signature])%string /\
  map (show bits) (card_ext b58 icon specs chain_name e 0 true) = extensions_in_lines count asset hashed specs s /\
  map (show bits) (card_call b58 icon specs chain_name call 0) =
    ["Pallet: Balances";
     "  Call: " ++ name;
     "    Field Name: dest";
     "      Enum";
     "        Enum Variant Name: Id";
     "          Id: " ++ b58 KAccountId32 dest (base58prefix specs);
     "    Field Name: value";
     "      Balance: " ++ money specs amount]%string.

(** Sender, signature, recipient and amount in range. *)
Definition signed_well (s : signing) (sender : bytes) (n : N) (k : fixed_kind) (signature dest : bytes) (amount : N) : Prop :=
  sg_version s = version /\ proper s /\ is_bytes sender /\ List.length sender = 32%nat /\ In (n, k) kinds /\
  is_bytes signature /\ List.length signature = (if kind_eqb k KSigEcdsa then 65 else 64)%nat /\
  is_bytes dest /\ List.length dest = 32%nat /\ (amount < 2 ^ 128)%N.

(** Included transfers are seen; and their call is the one seen when signing. *)
Definition included_seen : Prop := forall s g sender n k signature dest amount,
  signed_well s sender n k signature dest amount -> g = None \/ g = Some (sg_genesis s) ->
  exists a sg e call xs,
    result (parse_transaction (slice_buffer (payload (i :: j :: 0%N :: dest ++ compact_enc amount) (signed_bytes asset hashed s))) md g)
      = Ok (TransactionParsed (inl call) xs) /\
    parsed_extrinsic (extrinsic_of asset hashed s sender n signature (i :: j :: 0%N :: dest ++ compact_enc amount)) = Ok (UxSigned a sg e call) /\
    forall b58 icon specs chain_name bits, seen_as b58 icon specs chain_name bits a sg e call s sender k signature dest amount.

(** What is seen is included. *)
Definition seen_included : Prop := forall s sender n k signature dest amount,
  signed_well s sender n k signature dest amount ->
  forall b58 icon specs chain_name bits data a sg e call,
  base58_faithful b58 -> bits_faithful bits -> (decimals specs < 256)%N -> is_bytes data ->
  parsed_extrinsic data = Ok (UxSigned a sg e call) ->
  seen_as b58 icon specs chain_name bits a sg e call s sender k signature dest amount ->
  exists following, data = extrinsic_of asset hashed s sender n signature ((i :: j :: 0%N :: dest ++ compact_enc amount) ++ following).

Variables (p : extrinsic_params) (exts : list ext_meta).

Lemma usual_inside s specs : takes exts = PropTransferReal.order asset hashed ->
  count = dec_string (N.of_nat (List.length exts)) ->
  extra_bytes s exts = extensions_in asset hashed s /\ extra_lines specs s exts = extensions_in_lines count asset hashed specs s.
Proof.
  intros H Hc. unfold extra_bytes, extra_lines. rewrite <- Hc. clear Hc.
  assert (G : forall A (f : string -> list A), (forall i, existsb (String.eqb i) known_extensions = false -> f i = []) ->
    flat_map (fun m => f (em_identifier m)) exts = flat_map f (PropTransferReal.order asset hashed)).
  { intros A f Hf. rewrite <- H. unfold takes. clear H. induction exts as [|m l IH]; [reflexivity|]. cbn [flat_map map filter].
    destruct (existsb _ known_extensions) eqn:E; [cbn [flat_map]|rewrite (Hf _ E)]; rewrite IH; reflexivity. }
  assert (K : forall i, existsb (String.eqb i) known_extensions = false -> extension_bytes s i = [] /\ extension_lines specs s i = []).
  { intros q E. unfold known_extensions in E. cbn [existsb] in E. rewrite !Bool.orb_false_iff in E.
    destruct E as (E1 & E2 & E3 & E4 & E5 & E6 & E7 & E8 & _). unfold extension_bytes, extension_lines.
    rewrite E4, E5, E6, E7, E8. auto. }
  rewrite (G _ (extension_bytes s)) by (intros q E; apply K in E; tauto).
  rewrite (G _ (fun i => map indented (extension_lines specs s i))) by (intros q E; apply K in E; rewrite (proj2 E); reflexivity).
  unfold PropTransferReal.order, extensions_in, extensions_in_lines. rewrite !flat_map_app. cbn [flat_map].
  change (extension_bytes s "CheckSpecVersion") with (@nil N). change (extension_bytes s "CheckTxVersion") with (@nil N).
  change (extension_bytes s "CheckGenesis") with (@nil N). change (extension_bytes s "CheckMortality") with (era_enc (sg_era s)).
  change (extension_bytes s "CheckNonce") with (compact_enc (sg_nonce s)).
  split; [|destruct asset, hashed; try reflexivity; unfold extension_lines, hash_mode_lines; destruct (sg_metadata_hash s); reflexivity].
  assert (H1 : flat_map (extension_bytes s) (if hashed then ["CheckMetadataHash"] else []) =
    if hashed then [match sg_metadata_hash s with None => 0%N | Some _ => 1%N end] else []).
  { destruct hashed; [|reflexivity]. cbn [flat_map]. rewrite app_nil_r.
    change (extension_bytes s "CheckMetadataHash") with (match sg_metadata_hash s with None => [0%N] | Some _ => [1%N] end). destruct (sg_metadata_hash s); reflexivity. }
  assert (H3 : extension_bytes s (if asset then "ChargeAssetTxPayment" else "ChargeTransactionPayment") =
    compact_enc (sg_tip s) ++ (if asset then [0%N] else [])) by (destruct asset; [|rewrite app_nil_r]; reflexivity).
  rewrite H1, H3. cbn [app]. rewrite !app_nil_r, <- !app_assoc. reflexivity.
Qed.

Hypothesis md_types : m_types md = portable types.
Hypothesis usables : forall id, (id < N.of_nat (List.length types))%N -> usable types id.
Hypothesis is_params : m_extrinsic_type_params md = inl p.
Hypothesis is_call : m_call_ty md = inl (ep_call p).
Hypothesis is_version : m_extrinsic_version md = inl 4%N.
Hypothesis is_transfer : transferb types (ep_call p) i j name = true.
Hypothesis byte_i : (i < 256)%N.
Hypothesis byte_j : (j < 256)%N.
Hypothesis is_exts : m_signed_extensions md = inl exts.
Hypothesis usual : extensionsb types exts = true.
Hypothesis usual_parts : extrinsicb types bare p exts = true.
Hypothesis takers : takes exts = PropTransferReal.order asset hashed.
Hypothesis counted : count = dec_string (N.of_nat (List.length exts)).
Variable nv : spec_name_version.
Hypothesis is_spec : m_spec_name_version md = inl nv.
Hypothesis spec_is : printed_spec_version nv = dec_string version.

Lemma kinds_facts n k (signature : bytes) : In (n, k) kinds -> List.length signature = (if kind_eqb k KSigEcdsa then 65 else 64)%nat ->
  (n < 256)%N /\ List.length signature = raw_len k.
Proof. unfold kinds. cbn [In]. intros [E|[E|[E|[] ] ] ] ->; injection E as <- <-; split; reflexivity. Qed.

Theorem really_included_seen : included_seen.
Proof.
  intros s g sender n k signature dest amount (Hv & Hp & Hsb & Hsl & Hk & Hgb & Hgl & Hdb & Hdl & Ha) Hg.
  destruct (kinds_facts n k signature Hk Hgl) as (Hn & Hgl').
  destruct (c77_included ME (the_chain md types) p 4 i j n (form_of bare k) k name exts nv s g sender signature dest amount (usable_acyclic types usables) is_params is_call is_version
    eq_refl (transferb_ok _ _ _ _ _ is_transfer) is_exts (extrinsicb_ok _ _ _ _ _ _ usual usual_parts Hk) byte_i byte_j Hn is_spec)
    as (a & sg & e & call & xs & T & U & L); try assumption.
  { rewrite Hv. exact spec_is. }
  exists a, sg, e, call, xs. unfold transaction in T. unfold unchecked_extrinsic in U. rewrite (the_chain_ok md types md_types) in T, U.
  rewrite (proj1 (usual_takes asset hashed s (ShortSpecs 0 0 "") "" exts takers)) in T.
  rewrite (proj1 (usual_inside s (ShortSpecs 0 0 "") takers counted)) in U.
  split; [exact T|]. split; [exact U|]. intros b58 icon specs cn bits. destruct (L b58 icon specs cn bits) as (L1 & L2 & L3 & L4).
  rewrite (proj2 (usual_inside s specs takers counted)) in L3. refine (conj L1 (conj _ (conj L3 L4))). rewrite L2. destruct bare; reflexivity.
Qed.

Hypothesis apart : told_apart types.
Theorem really_seen_included : seen_included.
Proof.
  intros s sender n k signature dest amount (Hv & Hp & Hsb & Hsl & Hk & Hgb & Hgl & Hdb & Hdl & Ha) b58 icon specs cn bits data a sg e call F1 F2 Hd Hdata U
    (L1 & L2 & L3 & L4).
  destruct (kinds_facts n k signature Hk Hgl) as (Hn & Hgl').
  rewrite <- (proj2 (usual_inside s specs takers counted)) in L3. unfold parsed_extrinsic in U. rewrite <- (the_chain_ok md types md_types) in U.
  destruct (c77_only_included ME (the_chain md types) p 4 i j n (form_of bare k) k name exts nv s sender signature dest amount (usable_acyclic types usables) is_params is_call is_version
    eq_refl (transferb_ok _ _ _ _ _ is_transfer) is_exts (extrinsicb_ok _ _ _ _ _ _ usual usual_parts Hk) byte_i byte_j Hn is_spec) with
    (b58 := b58) (icon := icon) (specs := specs) (chain_name := cn) (bits := bits) (data := data) (a := a) (sg := sg) (e := e) (call := call)
    as (following & E); try assumption.
  2: { rewrite L2. destruct bare; reflexivity. }
  { rewrite Hv. exact spec_is. }
  exists following. rewrite (proj1 (usual_inside s specs takers counted)) in E. exact E.
Qed.
End Real.

Definition params_of {ME} (x : extrinsic_params + ME) : extrinsic_params :=
  match x with inl p => p | inr _ => ExtrinsicParams 0 0 0 0 end.

Definition westend_params := Eval vm_compute in params_of (m_extrinsic_type_params TestWestend.md).
Lemma westend_is_params : m_extrinsic_type_params TestWestend.md = inl westend_params. Proof. vm_compute. reflexivity. Qed.
Lemma westend_extrinsic_version : m_extrinsic_version TestWestend.md = inl 4%N. Proof. vm_compute. reflexivity. Qed.
Lemma westend_parts : extrinsicb TestWestend.md_types false westend_params westend_exts = true. Proof. vm_compute. reflexivity. Qed.

Theorem c77_westend :
  included_seen TestWestend.md 4 0 9111 "transfer" false false false "7" /\ seen_included TestWestend.md 4 0 9111 "transfer" false false false "7" /\
  included_seen TestWestend.md 4 3 9111 "transfer_keep_alive" false false false "7" /\ seen_included TestWestend.md 4 3 9111 "transfer_keep_alive" false false false "7".
Proof.
  refine (conj _ (conj _ (conj _ _))).
  - exact (really_included_seen _ _ _ _ _ _ _ _ _ _ _ _ westend_md PropWhole.westend_usable westend_is_params westend_call westend_extrinsic_version westend_transfer_call eq_refl eq_refl westend_is_exts westend_usual westend_parts westend_takes eq_refl _ westend_is_spec westend_version).
  - exact (really_seen_included _ _ _ _ _ _ _ _ _ _ _ _ westend_md PropWhole.westend_usable westend_is_params westend_call westend_extrinsic_version westend_transfer_call eq_refl eq_refl westend_is_exts westend_usual westend_parts westend_takes eq_refl _ westend_is_spec westend_version PropSee.westend_told_apart).
  - exact (really_included_seen _ _ _ _ _ _ _ _ _ _ _ _ westend_md PropWhole.westend_usable westend_is_params westend_call westend_extrinsic_version westend_transfer_keep_alive_call eq_refl eq_refl westend_is_exts westend_usual westend_parts westend_takes eq_refl _ westend_is_spec westend_version).
  - exact (really_seen_included _ _ _ _ _ _ _ _ _ _ _ _ westend_md PropWhole.westend_usable westend_is_params westend_call westend_extrinsic_version westend_transfer_keep_alive_call eq_refl eq_refl westend_is_exts westend_usual westend_parts westend_takes eq_refl _ westend_is_spec westend_version PropSee.westend_told_apart).
Qed.
Print Assumptions c77_westend.

Definition polkadot9430_params := Eval vm_compute in params_of (m_extrinsic_type_params TestPolkadot9430.md).
Lemma polkadot9430_is_params : m_extrinsic_type_params TestPolkadot9430.md = inl polkadot9430_params. Proof. vm_compute. reflexivity. Qed.
Lemma polkadot9430_extrinsic_version : m_extrinsic_version TestPolkadot9430.md = inl 4%N. Proof. vm_compute. reflexivity. Qed.
Lemma polkadot9430_parts : extrinsicb TestPolkadot9430.md_types false polkadot9430_params polkadot9430_exts = true. Proof. vm_compute. reflexivity. Qed.

Theorem c77_polkadot9430 :
  included_seen TestPolkadot9430.md 5 7 9430 "transfer" false false false "9" /\ seen_included TestPolkadot9430.md 5 7 9430 "transfer" false false false "9" /\
  included_seen TestPolkadot9430.md 5 3 9430 "transfer_keep_alive" false false false "9" /\ seen_included TestPolkadot9430.md 5 3 9430 "transfer_keep_alive" false false false "9" /\
  included_seen TestPolkadot9430.md 5 0 9430 "transfer_allow_death" false false false "9" /\ seen_included TestPolkadot9430.md 5 0 9430 "transfer_allow_death" false false false "9".
Proof.
  refine (conj _ (conj _ (conj _ (conj _ (conj _ _))))).
  - exact (really_included_seen _ _ _ _ _ _ _ _ _ _ _ _ polkadot9430_md PropReal.polkadot9430_usable polkadot9430_is_params polkadot9430_call polkadot9430_extrinsic_version polkadot9430_transfer_call eq_refl eq_refl polkadot9430_is_exts polkadot9430_usual polkadot9430_parts polkadot9430_takes eq_refl _ polkadot9430_is_spec polkadot9430_version).
  - exact (really_seen_included _ _ _ _ _ _ _ _ _ _ _ _ polkadot9430_md PropReal.polkadot9430_usable polkadot9430_is_params polkadot9430_call polkadot9430_extrinsic_version polkadot9430_transfer_call eq_refl eq_refl polkadot9430_is_exts polkadot9430_usual polkadot9430_parts polkadot9430_takes eq_refl _ polkadot9430_is_spec polkadot9430_version polkadot9430_apart).
  - exact (really_included_seen _ _ _ _ _ _ _ _ _ _ _ _ polkadot9430_md PropReal.polkadot9430_usable polkadot9430_is_params polkadot9430_call polkadot9430_extrinsic_version polkadot9430_transfer_keep_alive_call eq_refl eq_refl polkadot9430_is_exts polkadot9430_usual polkadot9430_parts polkadot9430_takes eq_refl _ polkadot9430_is_spec polkadot9430_version).
  - exact (really_seen_included _ _ _ _ _ _ _ _ _ _ _ _ polkadot9430_md PropReal.polkadot9430_usable polkadot9430_is_params polkadot9430_call polkadot9430_extrinsic_version polkadot9430_transfer_keep_alive_call eq_refl eq_refl polkadot9430_is_exts polkadot9430_usual polkadot9430_parts polkadot9430_takes eq_refl _ polkadot9430_is_spec polkadot9430_version polkadot9430_apart).
  - exact (really_included_seen _ _ _ _ _ _ _ _ _ _ _ _ polkadot9430_md PropReal.polkadot9430_usable polkadot9430_is_params polkadot9430_call polkadot9430_extrinsic_version polkadot9430_transfer_allow_death_call eq_refl eq_refl polkadot9430_is_exts polkadot9430_usual polkadot9430_parts polkadot9430_takes eq_refl _ polkadot9430_is_spec polkadot9430_version).
  - exact (really_seen_included _ _ _ _ _ _ _ _ _ _ _ _ polkadot9430_md PropReal.polkadot9430_usable polkadot9430_is_params polkadot9430_call polkadot9430_extrinsic_version polkadot9430_transfer_allow_death_call eq_refl eq_refl polkadot9430_is_exts polkadot9430_usual polkadot9430_parts polkadot9430_takes eq_refl _ polkadot9430_is_spec polkadot9430_version polkadot9430_apart).
Qed.
Print Assumptions c77_polkadot9430.

Definition polkadot15_params := Eval vm_compute in params_of (m_extrinsic_type_params TestPolkadot15.md).
Lemma polkadot15_is_params : m_extrinsic_type_params TestPolkadot15.md = inl polkadot15_params. Proof. vm_compute. reflexivity. Qed.
Lemma polkadot15_extrinsic_version : m_extrinsic_version TestPolkadot15.md = inl 4%N. Proof. vm_compute. reflexivity. Qed.
Lemma polkadot15_parts : extrinsicb TestPolkadot15.md_types false polkadot15_params polkadot15_exts = true. Proof. vm_compute. reflexivity. Qed.

Theorem c77_polkadot15 :
  included_seen TestPolkadot15.md 5 7 1000001 "transfer" false false false "9" /\ seen_included TestPolkadot15.md 5 7 1000001 "transfer" false false false "9" /\
  included_seen TestPolkadot15.md 5 3 1000001 "transfer_keep_alive" false false false "9" /\ seen_included TestPolkadot15.md 5 3 1000001 "transfer_keep_alive" false false false "9" /\
  included_seen TestPolkadot15.md 5 0 1000001 "transfer_allow_death" false false false "9" /\ seen_included TestPolkadot15.md 5 0 1000001 "transfer_allow_death" false false false "9".
Proof.
  refine (conj _ (conj _ (conj _ (conj _ (conj _ _))))).
  - exact (really_included_seen _ _ _ _ _ _ _ _ _ _ _ _ polkadot15_md PropReal.polkadot15_usable polkadot15_is_params polkadot15_call polkadot15_extrinsic_version polkadot15_transfer_call eq_refl eq_refl polkadot15_is_exts polkadot15_usual polkadot15_parts polkadot15_takes eq_refl _ polkadot15_is_spec polkadot15_version).
  - exact (really_seen_included _ _ _ _ _ _ _ _ _ _ _ _ polkadot15_md PropReal.polkadot15_usable polkadot15_is_params polkadot15_call polkadot15_extrinsic_version polkadot15_transfer_call eq_refl eq_refl polkadot15_is_exts polkadot15_usual polkadot15_parts polkadot15_takes eq_refl _ polkadot15_is_spec polkadot15_version polkadot15_apart).
  - exact (really_included_seen _ _ _ _ _ _ _ _ _ _ _ _ polkadot15_md PropReal.polkadot15_usable polkadot15_is_params polkadot15_call polkadot15_extrinsic_version polkadot15_transfer_keep_alive_call eq_refl eq_refl polkadot15_is_exts polkadot15_usual polkadot15_parts polkadot15_takes eq_refl _ polkadot15_is_spec polkadot15_version).
  - exact (really_seen_included _ _ _ _ _ _ _ _ _ _ _ _ polkadot15_md PropReal.polkadot15_usable polkadot15_is_params polkadot15_call polkadot15_extrinsic_version polkadot15_transfer_keep_alive_call eq_refl eq_refl polkadot15_is_exts polkadot15_usual polkadot15_parts polkadot15_takes eq_refl _ polkadot15_is_spec polkadot15_version polkadot15_apart).
  - exact (really_included_seen _ _ _ _ _ _ _ _ _ _ _ _ polkadot15_md PropReal.polkadot15_usable polkadot15_is_params polkadot15_call polkadot15_extrinsic_version polkadot15_transfer_allow_death_call eq_refl eq_refl polkadot15_is_exts polkadot15_usual polkadot15_parts polkadot15_takes eq_refl _ polkadot15_is_spec polkadot15_version).
  - exact (really_seen_included _ _ _ _ _ _ _ _ _ _ _ _ polkadot15_md PropReal.polkadot15_usable polkadot15_is_params polkadot15_call polkadot15_extrinsic_version polkadot15_transfer_allow_death_call eq_refl eq_refl polkadot15_is_exts polkadot15_usual polkadot15_parts polkadot15_takes eq_refl _ polkadot15_is_spec polkadot15_version polkadot15_apart).
Qed.
Print Assumptions c77_polkadot15.

Definition polkadot1003003_params := Eval vm_compute in params_of (m_extrinsic_type_params TestUnchecked15.md).
Lemma polkadot1003003_is_params : m_extrinsic_type_params TestUnchecked15.md = inl polkadot1003003_params. Proof. vm_compute. reflexivity. Qed.
Lemma polkadot1003003_extrinsic_version : m_extrinsic_version TestUnchecked15.md = inl 4%N. Proof. vm_compute. reflexivity. Qed.
Lemma polkadot1003003_parts : extrinsicb TestUnchecked15.md_types true polkadot1003003_params polkadot1003003_exts = true. Proof. vm_compute. reflexivity. Qed.

Theorem c77_polkadot1003003 :
  included_seen TestUnchecked15.md 5 3 1003003 "transfer_keep_alive" false true true "10" /\ seen_included TestUnchecked15.md 5 3 1003003 "transfer_keep_alive" false true true "10" /\
  included_seen TestUnchecked15.md 5 0 1003003 "transfer_allow_death" false true true "10" /\ seen_included TestUnchecked15.md 5 0 1003003 "transfer_allow_death" false true true "10".
Proof.
  refine (conj _ (conj _ (conj _ _))).
  - exact (really_included_seen _ _ _ _ _ _ _ _ _ _ _ _ polkadot1003003_md PropReal.unchecked15_usable polkadot1003003_is_params polkadot1003003_call polkadot1003003_extrinsic_version polkadot1003003_transfer_keep_alive_call eq_refl eq_refl polkadot1003003_is_exts polkadot1003003_usual polkadot1003003_parts polkadot1003003_takes eq_refl _ polkadot1003003_is_spec polkadot1003003_version).
  - exact (really_seen_included _ _ _ _ _ _ _ _ _ _ _ _ polkadot1003003_md PropReal.unchecked15_usable polkadot1003003_is_params polkadot1003003_call polkadot1003003_extrinsic_version polkadot1003003_transfer_keep_alive_call eq_refl eq_refl polkadot1003003_is_exts polkadot1003003_usual polkadot1003003_parts polkadot1003003_takes eq_refl _ polkadot1003003_is_spec polkadot1003003_version polkadot1003003_apart).
  - exact (really_included_seen _ _ _ _ _ _ _ _ _ _ _ _ polkadot1003003_md PropReal.unchecked15_usable polkadot1003003_is_params polkadot1003003_call polkadot1003003_extrinsic_version polkadot1003003_transfer_allow_death_call eq_refl eq_refl polkadot1003003_is_exts polkadot1003003_usual polkadot1003003_parts polkadot1003003_takes eq_refl _ polkadot1003003_is_spec polkadot1003003_version).
  - exact (really_seen_included _ _ _ _ _ _ _ _ _ _ _ _ polkadot1003003_md PropReal.unchecked15_usable polkadot1003003_is_params polkadot1003003_call polkadot1003003_extrinsic_version polkadot1003003_transfer_allow_death_call eq_refl eq_refl polkadot1003003_is_exts polkadot1003003_usual polkadot1003003_parts polkadot1003003_takes eq_refl _ polkadot1003003_is_spec polkadot1003003_version polkadot1003003_apart).
Qed.
Print Assumptions c77_polkadot1003003.

Definition astar_params := Eval vm_compute in params_of (m_extrinsic_type_params TestAstar.md).
Lemma astar_is_params : m_extrinsic_type_params TestAstar.md = inl astar_params. Proof. vm_compute. reflexivity. Qed.
Lemma astar_extrinsic_version : m_extrinsic_version TestAstar.md = inl 4%N. Proof. vm_compute. reflexivity. Qed.
Lemma astar_parts : extrinsicb TestAstar.md_types false astar_params astar_exts = true. Proof. vm_compute. reflexivity. Qed.

Theorem c77_astar :
  included_seen TestAstar.md 31 7 66 "transfer" false false false "7" /\ seen_included TestAstar.md 31 7 66 "transfer" false false false "7" /\
  included_seen TestAstar.md 31 3 66 "transfer_keep_alive" false false false "7" /\ seen_included TestAstar.md 31 3 66 "transfer_keep_alive" false false false "7" /\
  included_seen TestAstar.md 31 0 66 "transfer_allow_death" false false false "7" /\ seen_included TestAstar.md 31 0 66 "transfer_allow_death" false false false "7".
Proof.
  refine (conj _ (conj _ (conj _ (conj _ (conj _ _))))).
  - exact (really_included_seen _ _ _ _ _ _ _ _ _ _ _ _ astar_md PropReal.astar_usable astar_is_params astar_call astar_extrinsic_version astar_transfer_call eq_refl eq_refl astar_is_exts astar_usual astar_parts astar_takes eq_refl _ astar_is_spec astar_version).
  - exact (really_seen_included _ _ _ _ _ _ _ _ _ _ _ _ astar_md PropReal.astar_usable astar_is_params astar_call astar_extrinsic_version astar_transfer_call eq_refl eq_refl astar_is_exts astar_usual astar_parts astar_takes eq_refl _ astar_is_spec astar_version astar_apart).
  - exact (really_included_seen _ _ _ _ _ _ _ _ _ _ _ _ astar_md PropReal.astar_usable astar_is_params astar_call astar_extrinsic_version astar_transfer_keep_alive_call eq_refl eq_refl astar_is_exts astar_usual astar_parts astar_takes eq_refl _ astar_is_spec astar_version).
  - exact (really_seen_included _ _ _ _ _ _ _ _ _ _ _ _ astar_md PropReal.astar_usable astar_is_params astar_call astar_extrinsic_version astar_transfer_keep_alive_call eq_refl eq_refl astar_is_exts astar_usual astar_parts astar_takes eq_refl _ astar_is_spec astar_version astar_apart).
  - exact (really_included_seen _ _ _ _ _ _ _ _ _ _ _ _ astar_md PropReal.astar_usable astar_is_params astar_call astar_extrinsic_version astar_transfer_allow_death_call eq_refl eq_refl astar_is_exts astar_usual astar_parts astar_takes eq_refl _ astar_is_spec astar_version).
  - exact (really_seen_included _ _ _ _ _ _ _ _ _ _ _ _ astar_md PropReal.astar_usable astar_is_params astar_call astar_extrinsic_version astar_transfer_allow_death_call eq_refl eq_refl astar_is_exts astar_usual astar_parts astar_takes eq_refl _ astar_is_spec astar_version astar_apart).
Qed.
Print Assumptions c77_astar.

Definition bifrost_params := Eval vm_compute in params_of (m_extrinsic_type_params TestBifrost.md).
Lemma bifrost_is_params : m_extrinsic_type_params TestBifrost.md = inl bifrost_params. Proof. vm_compute. reflexivity. Qed.
Lemma bifrost_extrinsic_version : m_extrinsic_version TestBifrost.md = inl 4%N. Proof. vm_compute. reflexivity. Qed.
Lemma bifrost_parts : extrinsicb TestBifrost.md_types false bifrost_params bifrost_exts = true. Proof. vm_compute. reflexivity. Qed.

Theorem c77_bifrost :
  included_seen TestBifrost.md 10 7 982 "transfer" false false false "8" /\ seen_included TestBifrost.md 10 7 982 "transfer" false false false "8" /\
  included_seen TestBifrost.md 10 3 982 "transfer_keep_alive" false false false "8" /\ seen_included TestBifrost.md 10 3 982 "transfer_keep_alive" false false false "8" /\
  included_seen TestBifrost.md 10 0 982 "transfer_allow_death" false false false "8" /\ seen_included TestBifrost.md 10 0 982 "transfer_allow_death" false false false "8".
Proof.
  refine (conj _ (conj _ (conj _ (conj _ (conj _ _))))).
  - exact (really_included_seen _ _ _ _ _ _ _ _ _ _ _ _ bifrost_md PropReal.bifrost_usable bifrost_is_params bifrost_call bifrost_extrinsic_version bifrost_transfer_call eq_refl eq_refl bifrost_is_exts bifrost_usual bifrost_parts bifrost_takes eq_refl _ bifrost_is_spec bifrost_version).
  - exact (really_seen_included _ _ _ _ _ _ _ _ _ _ _ _ bifrost_md PropReal.bifrost_usable bifrost_is_params bifrost_call bifrost_extrinsic_version bifrost_transfer_call eq_refl eq_refl bifrost_is_exts bifrost_usual bifrost_parts bifrost_takes eq_refl _ bifrost_is_spec bifrost_version bifrost_apart).
  - exact (really_included_seen _ _ _ _ _ _ _ _ _ _ _ _ bifrost_md PropReal.bifrost_usable bifrost_is_params bifrost_call bifrost_extrinsic_version bifrost_transfer_keep_alive_call eq_refl eq_refl bifrost_is_exts bifrost_usual bifrost_parts bifrost_takes eq_refl _ bifrost_is_spec bifrost_version).
  - exact (really_seen_included _ _ _ _ _ _ _ _ _ _ _ _ bifrost_md PropReal.bifrost_usable bifrost_is_params bifrost_call bifrost_extrinsic_version bifrost_transfer_keep_alive_call eq_refl eq_refl bifrost_is_exts bifrost_usual bifrost_parts bifrost_takes eq_refl _ bifrost_is_spec bifrost_version bifrost_apart).
  - exact (really_included_seen _ _ _ _ _ _ _ _ _ _ _ _ bifrost_md PropReal.bifrost_usable bifrost_is_params bifrost_call bifrost_extrinsic_version bifrost_transfer_allow_death_call eq_refl eq_refl bifrost_is_exts bifrost_usual bifrost_parts bifrost_takes eq_refl _ bifrost_is_spec bifrost_version).
  - exact (really_seen_included _ _ _ _ _ _ _ _ _ _ _ _ bifrost_md PropReal.bifrost_usable bifrost_is_params bifrost_call bifrost_extrinsic_version bifrost_transfer_allow_death_call eq_refl eq_refl bifrost_is_exts bifrost_usual bifrost_parts bifrost_takes eq_refl _ bifrost_is_spec bifrost_version bifrost_apart).
Qed.
Print Assumptions c77_bifrost.

Definition statemint_params := Eval vm_compute in params_of (m_extrinsic_type_params TestStatemint.md).
Lemma statemint_is_params : m_extrinsic_type_params TestStatemint.md = inl statemint_params. Proof. vm_compute. reflexivity. Qed.
Lemma statemint_extrinsic_version : m_extrinsic_version TestStatemint.md = inl 4%N. Proof. vm_compute. reflexivity. Qed.
Lemma statemint_parts : extrinsicb TestStatemint.md_types false statemint_params statemint_exts = true. Proof. vm_compute. reflexivity. Qed.

Theorem c77_statemint :
  included_seen TestStatemint.md 10 3 1002000 "transfer_keep_alive" true false false "8" /\ seen_included TestStatemint.md 10 3 1002000 "transfer_keep_alive" true false false "8" /\
  included_seen TestStatemint.md 10 0 1002000 "transfer_allow_death" true false false "8" /\ seen_included TestStatemint.md 10 0 1002000 "transfer_allow_death" true false false "8".
Proof.
  refine (conj _ (conj _ (conj _ _))).
  - exact (really_included_seen _ _ _ _ _ _ _ _ _ _ _ _ statemint_md PropWhole.statemint_usable statemint_is_params statemint_call statemint_extrinsic_version statemint_transfer_keep_alive_call eq_refl eq_refl statemint_is_exts statemint_usual statemint_parts statemint_takes eq_refl _ statemint_is_spec statemint_version).
  - exact (really_seen_included _ _ _ _ _ _ _ _ _ _ _ _ statemint_md PropWhole.statemint_usable statemint_is_params statemint_call statemint_extrinsic_version statemint_transfer_keep_alive_call eq_refl eq_refl statemint_is_exts statemint_usual statemint_parts statemint_takes eq_refl _ statemint_is_spec statemint_version statemint_apart).
  - exact (really_included_seen _ _ _ _ _ _ _ _ _ _ _ _ statemint_md PropWhole.statemint_usable statemint_is_params statemint_call statemint_extrinsic_version statemint_transfer_allow_death_call eq_refl eq_refl statemint_is_exts statemint_usual statemint_parts statemint_takes eq_refl _ statemint_is_spec statemint_version).
  - exact (really_seen_included _ _ _ _ _ _ _ _ _ _ _ _ statemint_md PropWhole.statemint_usable statemint_is_params statemint_call statemint_extrinsic_version statemint_transfer_allow_death_call eq_refl eq_refl statemint_is_exts statemint_usual statemint_parts statemint_takes eq_refl _ statemint_is_spec statemint_version statemint_apart).
Qed.
Print Assumptions c77_statemint.

(** The extrinsic of the test at tests.rs:934-1233 is of this kind. *)
Definition alice : bytes := TestWestend.unhex "d43593c715fdd31c61141abd04a99fd6822c8558854ccde39a5684e7a56da27d".
Definition example_signature : bytes :=
  TestWestend.unhex "58e09098782f2e40602b37d94fe3e2d051c2e4927c34bc85525297310642db08280110b4a02b89676e966d07fdf7f362cdeb858d28d681564bd0f7d33dce5c8c".
Definition included_signing : signing := Signing (Mortal 64 44) 1 0 9111 7 (sg_genesis example_signing) (sg_block example_signing) None.

Example c77_example : signed_well 9111 included_signing alice 1 KSigSr25519 example_signature bob 100000000 /\
  extrinsic_of false false included_signing alice 1 example_signature (4%N :: 3%N :: 0%N :: bob ++ compact_enc 100000000) =
  TestWestend.unhex "39028400d43593c715fdd31c61141abd04a99fd6822c8558854ccde39a5684e7a56da27d0158e09098782f2e40602b37d94fe3e2d051c2e4927c34bc85525297310642db08280110b4a02b89676e966d07fdf7f362cdeb858d28d681564bd0f7d33dce5c8cc50204000403008eaf04151687736326c9fea17e25fc5287613693c912909cb226aa4794f26a480284d717" /\
  (sender_lines Address.address (ShortSpecs 42 12 "WND") alice ++ signature_lines (Some "Sr25519") KSigSr25519 example_signature ++
   extensions_in_lines "7" false false (ShortSpecs 42 12 "WND") included_signing ++
   transfer_lines Address.address (ShortSpecs 42 12 "WND") "transfer_keep_alive" bob 100000000) =
  ["Enum";
   "  Enum Variant Name: Id";
   "    Id: 5GrwvaEF5zXb26Fz9rcQpDWS57CtERHpNehXCPcNoHGKutQY";
   "Enum";
   "  Enum Variant Name: Sr25519";
   "    Signature Sr25519: 58e09098782f2e40602b37d94fe3e2d051c2e4927c34bc85525297310642db08280110b4a02b89676e966d07fdf7f362cdeb858d28d681564bd0f7d33dce5c8c";
   "Tuple: 7 element(s)";
   "  Era: Mortal, phase: 44, period: 64";
   "  Nonce: 1";
   "  Tip: 0 pWND";
   "Pallet: Balances";
   "  Call: transfer_keep_alive";
   "    Field Name: dest";
   "      Enum";
   "        Enum Variant Name: Id";
   "          Id: 5FHneW46xGXgs5mUiveU4sbTyGBzmstUspZC92UhjJM694ty";
   "    Field Name: value";
   "      Balance: 100.000000 uWND"].
Proof.
  split; [|split; [reflexivity|vm_compute; reflexivity] ].
  unfold signed_well. split; [reflexivity|]. split.
  { unfold proper. repeat (split; [first [apply bytes_checked; reflexivity | reflexivity]|]). split; [discriminate|exact I]. }
  repeat (split; [first [apply bytes_checked; reflexivity | reflexivity | cbn; auto]|]). reflexivity.
Qed.
