(** Transfers on usual chains (C76): what the metadata of such a chain have, the bytes a wallet
    puts together for signing a transfer, and the lines that are to be read on the screen.
    Only definitions; nothing of the decoder is used. *)
From Verif Require Import Base Compact Types Sign Balance Cards Spec ApiSign.
Local Open Scope string_scope.
Local Open Scope list_scope.

(** ** Types *)

Section Types.
Variable types : list ty.

(** Type [id] is an ordinary type with the definition [d]. *)
Definition ordinary (id : N) (d : typedef) : Prop :=
  exists t, lookup types id = Some t /\ classify t = SpPlain /\ t_def t = d.

Definition recognised (id : N) (s : special) : Prop := exists t, lookup types id = Some t /\ classify t = s.

Definition compact_number (w : uwidth) (id : N) : Prop :=
  exists j, ordinary id (TCompact j) /\ ordinary j (TPrimitive (PrU w)).

(** The type itself or a struct around it, as CheckNonce(..). *)
Definition perhaps_wrapped (P : N -> Prop) (id : N) : Prop :=
  P id \/ exists f, ordinary id (TComposite [f]) /\ f_name f = None /\ P (f_ty f).

Definition takes_no_bytes (id : N) : Prop := ordinary id (TTuple []) \/ ordinary id (TComposite []).

(** An address: an enum with the account as variant 0, called Id. *)
Definition address_type (id : N) : Prop :=
  exists l v f, ordinary id (TVariant l) /\ by_index l 0 = Some v /\ v_name v = "Id" /\ v_fields v = [f] /\
    f_name f = None /\ recognised (f_ty f) (SpRaw KAccountId32).

(** Call [j] of pallet [i], which is called Balances, is [name](dest: address, value: balance). *)
Definition transfer_call (call_ty i j : N) (name : string) : Prop :=
  exists t pallets pallet f inner calls call dest value,
    lookup types call_ty = Some t /\ classify t = SpItem ItCall /\ t_def t = TVariant pallets /\
    by_index pallets i = Some pallet /\ v_name pallet = "Balances" /\ v_fields pallet = [f] /\
    lookup types (f_ty f) = Some inner /\ classify inner = SpItem ItCall /\ t_def inner = TVariant calls /\
    by_index calls j = Some call /\ v_name call = name /\ v_fields call = [dest; value] /\
    f_name dest = Some "dest" /\ f_name value = Some "value" /\ field_label value = HFieldBalance /\
    address_type (f_ty dest) /\ compact_number U128 (f_ty value).

(** A tip and the asset to pay the fee in, which may be None. *)
Definition asset_tip (id : N) : Prop :=
  exists tip asset l v, ordinary id (TComposite [tip; asset]) /\ f_name tip = Some "tip" /\ compact_number U128 (f_ty tip) /\
    f_name asset = Some "asset_id" /\ ordinary (f_ty asset) (TVariant l) /\
    by_index l 0 = Some v /\ v_name v = "None" /\ v_fields v = [].

(** An enum with the variant [n] called [name]. *)
Definition has_variant (l : list variant) (n : N) (name : string) (fields : list field) : Prop :=
  exists v, by_index l n = Some v /\ v_name v = name /\ v_fields v = fields.

(** Whether the hash of the metadata is signed: the mode in the extrinsic; the hash itself is only signed. *)
Definition hash_mode (id : N) : Prop :=
  exists mode l, ordinary id (TComposite [mode]) /\ f_name mode = Some "mode" /\ ordinary (f_ty mode) (TVariant l) /\
    has_variant l 0 "Disabled" [] /\ has_variant l 1 "Enabled" [].
Definition hash_addition (id : N) : Prop :=
  exists l f el, ordinary id (TVariant l) /\ has_variant l 0 "None" [] /\ has_variant l 1 "Some" [f] /\
    f_name f = None /\ ordinary (f_ty f) (TArray 32 el) /\ ordinary el (TPrimitive (PrU U8)).

(** The extensions known here; all others must not take any bytes. *)
Definition known_extensions : list string :=
  ["CheckSpecVersion"; "CheckTxVersion"; "CheckGenesis"; "CheckMortality"; "CheckNonce"; "ChargeTransactionPayment";
   "ChargeAssetTxPayment"; "CheckMetadataHash"].

Inductive usual_extension : ext_meta -> Prop :=
| UE_spec_version e a : takes_no_bytes e -> ordinary a (TPrimitive (PrU U32)) ->
    usual_extension (ExtMeta "CheckSpecVersion" e a)
| UE_tx_version e a : takes_no_bytes e -> ordinary a (TPrimitive (PrU U32)) ->
    usual_extension (ExtMeta "CheckTxVersion" e a)
| UE_genesis e a : takes_no_bytes e -> recognised a SpHash -> usual_extension (ExtMeta "CheckGenesis" e a)
| UE_mortality e a : perhaps_wrapped (fun id => recognised id SpEra) e -> recognised a SpHash ->
    usual_extension (ExtMeta "CheckMortality" e a)
| UE_nonce e a : perhaps_wrapped (compact_number U32) e -> takes_no_bytes a -> usual_extension (ExtMeta "CheckNonce" e a)
| UE_tip e a : perhaps_wrapped (compact_number U128) e -> takes_no_bytes a ->
    usual_extension (ExtMeta "ChargeTransactionPayment" e a)
| UE_asset_tip e a : asset_tip e -> takes_no_bytes a -> usual_extension (ExtMeta "ChargeAssetTxPayment" e a)
| UE_metadata_hash e a : hash_mode e -> hash_addition a -> usual_extension (ExtMeta "CheckMetadataHash" e a)
| UE_other i e a : ~ In i known_extensions -> takes_no_bytes e -> takes_no_bytes a -> usual_extension (ExtMeta i e a).

Definition usual_extensions (l : list ext_meta) : Prop :=
  Forall usual_extension l /\ NoDup (map em_identifier l) /\
  In "CheckSpecVersion" (map em_identifier l) /\ In "CheckGenesis" (map em_identifier l).
End Types.

(** ** What is signed *)

Record signing := Signing {
  sg_era : era; sg_nonce : N; sg_tip : N; sg_version : N; sg_tx_version : N; sg_genesis : bytes; sg_block : bytes;
  sg_metadata_hash : option bytes }.

(** In range; and an immortal transaction has the genesis hash as its block hash. *)
Definition proper (s : signing) : Prop :=
  era_valid (sg_era s) = true /\ fits U32 (sg_nonce s) = true /\ fits U128 (sg_tip s) = true /\
  fits U32 (sg_version s) = true /\ fits U32 (sg_tx_version s) = true /\
  is_bytes (sg_genesis s) /\ List.length (sg_genesis s) = 32%nat /\
  is_bytes (sg_block s) /\ List.length (sg_block s) = 32%nat /\
  (sg_era s = Immortal -> sg_block s = sg_genesis s) /\
  match sg_metadata_hash s with
  | None => True
  | Some h => is_bytes h /\ List.length h = 32%nat
  end.

(** The bytes of an extension that go into the extrinsic, and those that are only signed. *)
Definition extension_bytes (s : signing) (identifier : string) : bytes :=
  if String.eqb identifier "CheckMortality" then era_enc (sg_era s)
  else if String.eqb identifier "CheckNonce" then compact_enc (sg_nonce s)
  else if String.eqb identifier "ChargeTransactionPayment" then compact_enc (sg_tip s)
  else if String.eqb identifier "ChargeAssetTxPayment" then compact_enc (sg_tip s) ++ [0%N]
  else if String.eqb identifier "CheckMetadataHash" then match sg_metadata_hash s with None => [0%N] | Some _ => [1%N] end
  else [].

Definition additional_bytes (s : signing) (identifier : string) : bytes :=
  if String.eqb identifier "CheckSpecVersion" then le_bytes 4 (sg_version s)
  else if String.eqb identifier "CheckTxVersion" then le_bytes 4 (sg_tx_version s)
  else if String.eqb identifier "CheckGenesis" then sg_genesis s
  else if String.eqb identifier "CheckMortality" then sg_block s
  else if String.eqb identifier "CheckMetadataHash" then match sg_metadata_hash s with None => [0%N] | Some h => 1%N :: h end
  else [].

Definition all_extension_bytes (s : signing) (l : list ext_meta) : bytes :=
  flat_map (fun m => extension_bytes s (em_identifier m)) l ++ flat_map (fun m => additional_bytes s (em_identifier m)) l.

(** Pallet, call, address as Id, amount. *)
Definition transfer_bytes (i j : N) (dest : bytes) (amount : N) : bytes := i :: j :: 0%N :: dest ++ compact_enc amount.

Definition payload (call extensions : bytes) : bytes := compact_enc (N.of_nat (List.length call)) ++ call ++ extensions.

(** ** What is shown *)

Local Open Scope string_scope.

Section Lines.
Variable base58 : fixed_kind -> bytes -> N -> string.
Variable specs : short_specs.
Variable chain_name : string.

Definition money (n : N) : string :=
  match convert_balance_pretty n (decimals specs) (unit_name specs) with
  | Some c => number c ++ " " ++ units c
  | None => ""
  end.

Definition transfer_lines (name : string) (dest : bytes) (amount : N) : list string :=
  [ "Pallet: Balances";
    "  Call: " ++ name;
    "    Field Name: dest";
    "      Enum";
    "        Enum Variant Name: Id";
    "          Id: " ++ base58 KAccountId32 dest (base58prefix specs);
    "    Field Name: value";
    "      Balance: " ++ money amount ].

Definition era_text (e : era) : string :=
  match e with
  | Immortal => "Immortal"
  | Mortal period phase => "Mortal, phase: " ++ dec_string phase ++ ", period: " ++ dec_string period
  end.

(** The tip is shown as a plain number here: the asset is not known. *)
Definition asset_tip_lines (s : signing) : list string :=
  [ "Struct: 2 field(s)";
    "  Field Name: tip";
    "    Tip Asset: " ++ dec_string (sg_tip s);
    "  Field Name: asset_id";
    "    Enum";
    "      Enum Variant Name: None" ].

Definition hash_mode_lines (s : signing) : list string :=
  [ "Struct: 1 field(s)";
    "  Field Name: mode";
    "    Enum";
    "      Enum Variant Name: " ++ match sg_metadata_hash s with None => "Disabled" | Some _ => "Enabled" end ].

(** An array of bytes, the hash is shown as text if it happens to be text (when it is: C39). *)
Definition hash_lines (s : signing) : list string :=
  match sg_metadata_hash s with
  | None => ["Enum"; "  Enum Variant Name: None"]
  | Some h => ["Enum"; "  Enum Variant Name: Some";
      match text_of h with Some text => "    Text: " ++ text | None => "    Sequence u8: " ++ hex_encode h end]
  end.

Definition extension_lines (s : signing) (identifier : string) : list string :=
  if String.eqb identifier "CheckMortality" then ["Era: " ++ era_text (sg_era s)]
  else if String.eqb identifier "CheckNonce" then ["Nonce: " ++ dec_string (sg_nonce s)]
  else if String.eqb identifier "ChargeTransactionPayment" then ["Tip: " ++ money (sg_tip s)]
  else if String.eqb identifier "ChargeAssetTxPayment" then asset_tip_lines s
  else if String.eqb identifier "CheckMetadataHash" then hash_mode_lines s
  else [].

Definition additional_lines (s : signing) (identifier : string) : list string :=
  if String.eqb identifier "CheckSpecVersion" then ["Chain: " ++ chain_name ++ dec_string (sg_version s)]
  else if String.eqb identifier "CheckTxVersion" then ["Tx Version: " ++ dec_string (sg_tx_version s)]
  else if String.eqb identifier "CheckGenesis" then ["Genesis Hash: " ++ hex_encode (sg_genesis s)]
  else if String.eqb identifier "CheckMortality" then ["Block Hash: " ++ hex_encode (sg_block s)]
  else if String.eqb identifier "CheckMetadataHash" then hash_lines s
  else [].

Definition all_extension_lines (s : signing) (l : list ext_meta) : list string :=
  (flat_map (fun m => extension_lines s (em_identifier m)) l ++ flat_map (fun m => additional_lines s (em_identifier m)) l)%list.
End Lines.
