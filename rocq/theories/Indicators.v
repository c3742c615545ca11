(** /repo/src/special_indicators.rs: tables and hints. No proofs here. *)
From Verif Require Import Base Compact Types.
Local Open Scope string_scope.

(** special_indicators.rs:24-32 *)
Definition BALANCE_ID_SET : list string :=
  ["Balance"; "BalanceOf<T>"; "BalanceOf<T, I>"; "DepositBalance"; "ExtendedBalance";
   "PalletBalanceOf<T>"; "T::Balance"].
(** special_indicators.rs:38, 44, 50 *)
Definition SIGNATURE_ECDSA_ID_SET : list string := ["ecdsa::Signature"].
Definition SIGNATURE_ED25519_ID_SET : list string := ["ed25519::Signature"].
Definition SIGNATURE_SR25519_ID_SET : list string := ["sr25519::Signature"].
(** special_indicators.rs:55, 60, 65, 71 *)
Definition NONCE_ID_SET : list string := ["nonce"].
Definition SPEC_VERSION_ID_SET : list string := ["spec_version"].
Definition SPEC_NAME_ID_SET : list string := ["spec_name"].
Definition TX_VERSION_ID_SET : list string := ["tx_version"; "transaction_version"].
(** special_indicators.rs:73-135 idents and namespaces *)
Definition CALL : list string := ["Call"; "RuntimeCall"].
Definition EVENT : list string := ["Event"; "RuntimeEvent"].
Definition H160_IDENTS : list string := ["AccountId20"; "H160"].
Definition SP_CORE_ED25519 : list string := ["sp_core"; "ed25519"].
Definition SP_CORE_SR25519 : list string := ["sp_core"; "sr25519"].
Definition SP_CORE_ECDSA : list string := ["sp_core"; "ecdsa"].
Definition UNCHECKED_EXTRINSIC_NAMESPACE : list string :=
  ["sp_runtime"; "generic"; "unchecked_extrinsic"].

(** special_indicators.rs:363-383 `Hint::from_field`. *)
Definition hint_from_field (f : field) : hint :=
  let out :=
    match f_name f with
    | Some name =>
        if str_in name NONCE_ID_SET then HFieldNonce
        else if str_in name SPEC_VERSION_ID_SET then HFieldSpecVersion
        else if str_in name SPEC_NAME_ID_SET then HFieldSpecName
        else if str_in name TX_VERSION_ID_SET then HFieldTxVersion
        else HNone
    | None => HNone
    end in
  match out with
  | HNone =>
      match f_type_name f with
      | Some type_name => if str_in type_name BALANCE_ID_SET then HFieldBalance else HNone
      | None => out
      end
  | _ => out
  end.

(** special_indicators.rs:386-397 `Hint::from_ext_meta`, by the extension identifier. *)
Definition hint_from_ext (identifier : string) : hint :=
  if String.eqb identifier "CheckSpecVersion" then HCheckSpecVersion
  else if String.eqb identifier "CheckTxVersion" then HCheckTxVersion
  else if String.eqb identifier "CheckGenesis" then HCheckGenesis
  else if String.eqb identifier "CheckMortality" then HCheckMortality
  else if String.eqb identifier "CheckNonce" then HCheckNonce
  else if String.eqb identifier "ChargeAssetTxPayment" then HChargeAssetTxPayment
  else if String.eqb identifier "ChargeTransactionPayment" then HChargeTransactionPayment
  else HNone.

(** special_indicators.rs:403-413 `Hint::from_path`. *)
Definition hint_from_path (path : list string) : hint :=
  match path_ident path with
  | Some a =>
      if String.eqb a "CheckNonce" then HCheckNonce
      else if String.eqb a "ChargeAssetTxPayment" then HChargeAssetTxPayment
      else if String.eqb a "ChargeTransactionPayment" then HChargeTransactionPayment
      else HNone
  | None => HNone
  end.

(** special_indicators.rs:416-428 `Hint::unsigned_integer`. *)
Definition hint_uint (h : hint) : spec_uint :=
  match h with
  | HCheckSpecVersion | HFieldSpecVersion => SuSpecVersion
  | HCheckTxVersion | HFieldTxVersion => SuTxVersion
  | HCheckNonce | HFieldNonce => SuNonce
  | HChargeTransactionPayment => SuTip
  | HChargeAssetTxPayment => SuTipAsset
  | HFieldBalance => SuBalance
  | _ => SuNone
  end.

(** special_indicators.rs:431-436 `Hint::string`. *)
Definition hint_str (h : hint) : spec_str :=
  match h with HFieldSpecName => SsSpecName | _ => SsNone end.

(** special_indicators.rs:439-445 `Hint::hash256`. *)
Definition hint_hash (h : hint) : spec_hash :=
  match h with HCheckGenesis => ShGenesis | HCheckMortality => ShBlock | _ => ShNone end.

(** special_indicators.rs:492-549 `SpecialtyTypeHinted::from_type`. *)
Definition hinted_from_type (t : ty) : hinted :=
  match path_ident (t_path t) with
  | Some a =>
      if String.eqb a "AccountId32" then HtFixed KAccountId32
      else if str_in a CALL then HtPalletSpecific ItCall
      else if String.eqb a "Era" then HtEra
      else if str_in a EVENT then HtPalletSpecific ItEvent
      else if str_in a H160_IDENTS then HtFixed KH160
      else if String.eqb a "H256" then HtH256
      else if String.eqb a "H512" then HtFixed KH512
      else if String.eqb a "MultiSignature" then HtMultiSignature
      else if String.eqb a "Perbill" then HtPer KPerbill
      else if String.eqb a "Percent" then HtPer KPercent
      else if String.eqb a "Permill" then HtPer KPermill
      else if String.eqb a "Perquintill" then HtPer KPerquintill
      else if String.eqb a "PerU16" then HtPer KPerU16
      else if String.eqb a "Public" then
        let ns := path_namespace (t_path t) in
        if strs_eqb ns SP_CORE_ED25519 then HtFixed KPubEd25519
        else if strs_eqb ns SP_CORE_SR25519 then HtFixed KPubSr25519
        else if strs_eqb ns SP_CORE_ECDSA then HtFixed KPubEcdsa
        else HtNone
      else if String.eqb a "Signature" then
        let ns := path_namespace (t_path t) in
        if strs_eqb ns SP_CORE_ED25519 then HtFixed KSigEd25519
        else if strs_eqb ns SP_CORE_SR25519 then HtFixed KSigSr25519
        else if strs_eqb ns SP_CORE_ECDSA then HtFixed KSigEcdsa
        else HtNone
      else if String.eqb a "UncheckedExtrinsic" then
        if strs_eqb (path_namespace (t_path t)) UNCHECKED_EXTRINSIC_NAMESPACE
        then HtUncheckedExtrinsic else HtNone
      else HtNone
  | None => HtNone
  end.

(** propagated.rs:130-145 `Checker::update_for_field`. *)
Definition update_for_field (c : checker) (f : field) : checker + int_err :=
  let c1 := match c_hint c with HNone => with_hint c (hint_from_field f) | _ => c end in
  check_id c1 (f_ty f).

(** propagated.rs:63-67 `SpecialtySet::update_from_path`. *)
Definition update_from_path (c : checker) (path : list string) : checker :=
  match c_hint c with HNone => with_hint c (hint_from_path path) | _ => c end.

(** propagated.rs:149-158 `Checker::update_for_ty`. *)
Definition update_for_ty (c : checker) (t : ty) (id : N) : checker + int_err :=
  match check_id c id with
  | inl c1 => inl (update_from_path c1 (t_path t))
  | inr x => inr x
  end.

(** propagated.rs:235-243 `Propagated::for_field`. *)
Definition for_field (c : checker) (f : field) : propagated + int_err :=
  match update_for_field c f with
  | inl c1 => inl (with_checker c1)
  | inr x => inr x
  end.

(** propagated.rs:247-256 `Propagated::for_ty`. *)
Definition for_ty (c : checker) (t : ty) (id : N) : propagated + int_err :=
  match update_for_ty c t id with
  | inl c1 => inl (with_checker c1)
  | inr x => inr x
  end.

(** propagated.rs:212-223 `Propagated::from_ext_meta`. *)
Definition from_ext_meta (identifier : string) : propagated :=
  Propagated (Checker None (hint_from_ext identifier) []) [].
