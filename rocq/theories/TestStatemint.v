(** GENERATED from /repo/for_tests/statemint1002000 and /repo/src/tests.rs: the tests of the
    repository on this metadata replayed on the model (tests of the fidelity of the
    model, not proofs of properties). Identicons are not compared. *)
From Verif Require Import Base Compact Types Indicators Decode Sign Meta Balance Cards Unchecked.
From Verif Require Address.
Definition b58 := Address.address.
Definition idn (b : bytes) : bytes := [].
Definition bs := Address.bits_text.
Fixpoint unhex (s : string) : bytes :=
  let v c := let n := N_of_ascii c in if (n <? 58)%N then (n - 48)%N else (n - 87)%N in
  match s with String a (String b r) => (16 * v a + v b)%N :: unhex r | _ => [] end.
Definition md_t0 : ty := (Ty ["sp_core"%string; "crypto"%string; "AccountId32"%string] [] (TComposite [(Field None 1%N (Some "[u8; 32]"%string) [])]) []).
Definition md_t1 : ty := (Ty [] [] (TArray 32%N 2%N) []).
Definition md_t2 : ty := (Ty [] [] (TPrimitive (PrU U8)) []).
Definition md_t3 : ty := (Ty ["frame_system"%string; "AccountInfo"%string] [("Nonce"%string,(Some 4%N)); ("AccountData"%string,(Some 5%N))] (TComposite [(Field (Some "nonce"%string) 4%N (Some "Nonce"%string) []); (Field (Some "consumers"%string) 4%N (Some "RefCount"%string) []); (Field (Some "providers"%string) 4%N (Some "RefCount"%string) []); (Field (Some "sufficients"%string) 4%N (Some "RefCount"%string) []); (Field (Some "data"%string) 5%N (Some "AccountData"%string) [])]) []).
Definition md_t4 : ty := (Ty [] [] (TPrimitive (PrU U32)) []).
Definition md_t5 : ty := (Ty ["pallet_balances"%string; "types"%string; "AccountData"%string] [("Balance"%string,(Some 6%N))] (TComposite [(Field (Some "free"%string) 6%N (Some "Balance"%string) []); (Field (Some "reserved"%string) 6%N (Some "Balance"%string) []); (Field (Some "frozen"%string) 6%N (Some "Balance"%string) []); (Field (Some "flags"%string) 7%N (Some "ExtraFlags"%string) [])]) []).
Definition md_t6 : ty := (Ty [] [] (TPrimitive (PrU U128)) []).
Definition md_t7 : ty := (Ty ["pallet_balances"%string; "types"%string; "ExtraFlags"%string] [] (TComposite [(Field None 6%N (Some "u128"%string) [])]) []).
Definition md_t8 : ty := (Ty ["frame_support"%string; "dispatch"%string; "PerDispatchClass"%string] [("T"%string,(Some 9%N))] (TComposite [(Field (Some "normal"%string) 9%N (Some "T"%string) []); (Field (Some "operational"%string) 9%N (Some "T"%string) []); (Field (Some "mandatory"%string) 9%N (Some "T"%string) [])]) []).
Definition md_t9 : ty := (Ty ["sp_weights"%string; "weight_v2"%string; "Weight"%string] [] (TComposite [(Field (Some "ref_time"%string) 10%N (Some "u64"%string) []); (Field (Some "proof_size"%string) 10%N (Some "u64"%string) [])]) []).
Definition md_t10 : ty := (Ty [] [] (TCompact 11%N) []).
Definition md_t11 : ty := (Ty [] [] (TPrimitive (PrU U64)) []).
Definition md_t12 : ty := (Ty ["primitive_types"%string; "H256"%string] [] (TComposite [(Field None 1%N (Some "[u8; 32]"%string) [])]) []).
Definition md_t13 : ty := (Ty [] [] (TSequence 2%N) []).
Definition md_t14 : ty := (Ty ["sp_runtime"%string; "generic"%string; "digest"%string; "Digest"%string] [] (TComposite [(Field (Some "logs"%string) 15%N (Some "Vec<DigestItem>"%string) [])]) []).
Definition md_t15 : ty := (Ty [] [] (TSequence 16%N) []).
Definition md_t16 : ty := (Ty ["sp_runtime"%string; "generic"%string; "digest"%string; "DigestItem"%string] [] (TVariant [(Variant "PreRuntime"%string [(Field None 17%N (Some "ConsensusEngineId"%string) []); (Field None 13%N (Some "Vec<u8>"%string) [])] 6%N []); (Variant "Consensus"%string [(Field None 17%N (Some "ConsensusEngineId"%string) []); (Field None 13%N (Some "Vec<u8>"%string) [])] 4%N []); (Variant "Seal"%string [(Field None 17%N (Some "ConsensusEngineId"%string) []); (Field None 13%N (Some "Vec<u8>"%string) [])] 5%N []); (Variant "Other"%string [(Field None 13%N (Some "Vec<u8>"%string) [])] 0%N []); (Variant "RuntimeEnvironmentUpdated"%string [] 8%N [])]) []).
Definition md_t17 : ty := (Ty [] [] (TArray 4%N 2%N) []).
Definition md_t18 : ty := (Ty [] [] (TSequence 19%N) []).
Definition md_t19 : ty := (Ty ["frame_system"%string; "EventRecord"%string] [("E"%string,(Some 20%N)); ("T"%string,(Some 12%N))] (TComposite [(Field (Some "phase"%string) 152%N (Some "Phase"%string) []); (Field (Some "event"%string) 20%N (Some "E"%string) []); (Field (Some "topics"%string) 153%N (Some "Vec<T>"%string) [])]) []).
Definition md_t20 : ty := (Ty ["asset_hub_polkadot_runtime"%string; "RuntimeEvent"%string] [] (TVariant [(Variant "System"%string [(Field None 21%N (Some "frame_system::Event<Runtime>"%string) [])] 0%N []); (Variant "ParachainSystem"%string [(Field None 31%N (Some "cumulus_pallet_parachain_system::Event<Runtime>"%string) [])] 1%N []); (Variant "Balances"%string [(Field None 33%N (Some "pallet_balances::Event<Runtime>"%string) [])] 10%N []); (Variant "TransactionPayment"%string [(Field None 35%N (Some "pallet_transaction_payment::Event<Runtime>"%string) [])] 11%N []); (Variant "AssetTxPayment"%string [(Field None 36%N (Some "pallet_asset_conversion_tx_payment::Event<Runtime>"%string) [])] 13%N []); (Variant "CollatorSelection"%string [(Field None 47%N (Some "pallet_collator_selection::Event<Runtime>"%string) [])] 21%N []); (Variant "Session"%string [(Field None 49%N (Some "pallet_session::Event"%string) [])] 22%N []); (Variant "XcmpQueue"%string [(Field None 50%N (Some "cumulus_pallet_xcmp_queue::Event<Runtime>"%string) [])] 30%N []); (Variant "PolkadotXcm"%string [(Field None 51%N (Some "pallet_xcm::Event<Runtime>"%string) [])] 31%N []); (Variant "CumulusXcm"%string [(Field None 116%N (Some "cumulus_pallet_xcm::Event<Runtime>"%string) [])] 32%N []); (Variant "DmpQueue"%string [(Field None 117%N (Some "cumulus_pallet_dmp_queue::Event<Runtime>"%string) [])] 33%N []); (Variant "MessageQueue"%string [(Field None 118%N (Some "pallet_message_queue::Event<Runtime>"%string) [])] 35%N []); (Variant "Utility"%string [(Field None 122%N (Some "pallet_utility::Event"%string) [])] 40%N []); (Variant "Multisig"%string [(Field None 125%N (Some "pallet_multisig::Event<Runtime>"%string) [])] 41%N []); (Variant "Proxy"%string [(Field None 127%N (Some "pallet_proxy::Event<Runtime>"%string) [])] 42%N []); (Variant "Assets"%string [(Field None 130%N (Some "pallet_assets::Event<Runtime, pallet_assets::Instance1>"%string) [])] 50%N []); (Variant "Uniques"%string [(Field None 131%N (Some "pallet_uniques::Event<Runtime>"%string) [])] 51%N []); (Variant "Nfts"%string [(Field None 138%N (Some "pallet_nfts::Event<Runtime>"%string) [])] 52%N []); (Variant "ForeignAssets"%string [(Field None 145%N (Some "pallet_assets::Event<Runtime, pallet_assets::Instance2>"%string) [])] 53%N []); (Variant "PoolAssets"%string [(Field None 146%N (Some "pallet_assets::Event<Runtime, pallet_assets::Instance3>"%string) [])] 54%N []); (Variant "AssetConversion"%string [(Field None 147%N (Some "pallet_asset_conversion::Event<Runtime>"%string) [])] 55%N [])]) []).
Definition md_t21 : ty := (Ty ["frame_system"%string; "pallet"%string; "Event"%string] [("T"%string,None)] (TVariant [(Variant "ExtrinsicSuccess"%string [(Field (Some "dispatch_info"%string) 22%N (Some "DispatchInfo"%string) [])] 0%N ["An extrinsic completed successfully."%string]); (Variant "ExtrinsicFailed"%string [(Field (Some "dispatch_error"%string) 25%N (Some "DispatchError"%string) []); (Field (Some "dispatch_info"%string) 22%N (Some "DispatchInfo"%string) [])] 1%N ["An extrinsic failed."%string]); (Variant "CodeUpdated"%string [] 2%N ["`:code` was updated."%string]); (Variant "NewAccount"%string [(Field (Some "account"%string) 0%N (Some "T::AccountId"%string) [])] 3%N ["A new account was created."%string]); (Variant "KilledAccount"%string [(Field (Some "account"%string) 0%N (Some "T::AccountId"%string) [])] 4%N ["An account was reaped."%string]); (Variant "Remarked"%string [(Field (Some "sender"%string) 0%N (Some "T::AccountId"%string) []); (Field (Some "hash"%string) 12%N (Some "T::Hash"%string) [])] 5%N ["On on-chain remark happened."%string]); (Variant "UpgradeAuthorized"%string [(Field (Some "code_hash"%string) 12%N (Some "T::Hash"%string) []); (Field (Some "check_version"%string) 30%N (Some "bool"%string) [])] 6%N ["An upgrade was authorized."%string])]) ["Event for the System pallet."%string]).
Definition md_t22 : ty := (Ty ["frame_support"%string; "dispatch"%string; "DispatchInfo"%string] [] (TComposite [(Field (Some "weight"%string) 9%N (Some "Weight"%string) []); (Field (Some "class"%string) 23%N (Some "DispatchClass"%string) []); (Field (Some "pays_fee"%string) 24%N (Some "Pays"%string) [])]) []).
Definition md_t23 : ty := (Ty ["frame_support"%string; "dispatch"%string; "DispatchClass"%string] [] (TVariant [(Variant "Normal"%string [] 0%N []); (Variant "Operational"%string [] 1%N []); (Variant "Mandatory"%string [] 2%N [])]) []).
Definition md_t24 : ty := (Ty ["frame_support"%string; "dispatch"%string; "Pays"%string] [] (TVariant [(Variant "Yes"%string [] 0%N []); (Variant "No"%string [] 1%N [])]) []).
Definition md_t25 : ty := (Ty ["sp_runtime"%string; "DispatchError"%string] [] (TVariant [(Variant "Other"%string [] 0%N []); (Variant "CannotLookup"%string [] 1%N []); (Variant "BadOrigin"%string [] 2%N []); (Variant "Module"%string [(Field None 26%N (Some "ModuleError"%string) [])] 3%N []); (Variant "ConsumerRemaining"%string [] 4%N []); (Variant "NoProviders"%string [] 5%N []); (Variant "TooManyConsumers"%string [] 6%N []); (Variant "Token"%string [(Field None 27%N (Some "TokenError"%string) [])] 7%N []); (Variant "Arithmetic"%string [(Field None 28%N (Some "ArithmeticError"%string) [])] 8%N []); (Variant "Transactional"%string [(Field None 29%N (Some "TransactionalError"%string) [])] 9%N []); (Variant "Exhausted"%string [] 10%N []); (Variant "Corruption"%string [] 11%N []); (Variant "Unavailable"%string [] 12%N []); (Variant "RootNotAllowed"%string [] 13%N [])]) []).
Definition md_t26 : ty := (Ty ["sp_runtime"%string; "ModuleError"%string] [] (TComposite [(Field (Some "index"%string) 2%N (Some "u8"%string) []); (Field (Some "error"%string) 17%N (Some "[u8; MAX_MODULE_ERROR_ENCODED_SIZE]"%string) [])]) []).
Definition md_t27 : ty := (Ty ["sp_runtime"%string; "TokenError"%string] [] (TVariant [(Variant "FundsUnavailable"%string [] 0%N []); (Variant "OnlyProvider"%string [] 1%N []); (Variant "BelowMinimum"%string [] 2%N []); (Variant "CannotCreate"%string [] 3%N []); (Variant "UnknownAsset"%string [] 4%N []); (Variant "Frozen"%string [] 5%N []); (Variant "Unsupported"%string [] 6%N []); (Variant "CannotCreateHold"%string [] 7%N []); (Variant "NotExpendable"%string [] 8%N []); (Variant "Blocked"%string [] 9%N [])]) []).
Definition md_t28 : ty := (Ty ["sp_arithmetic"%string; "ArithmeticError"%string] [] (TVariant [(Variant "Underflow"%string [] 0%N []); (Variant "Overflow"%string [] 1%N []); (Variant "DivisionByZero"%string [] 2%N [])]) []).
Definition md_t29 : ty := (Ty ["sp_runtime"%string; "TransactionalError"%string] [] (TVariant [(Variant "LimitReached"%string [] 0%N []); (Variant "NoLayer"%string [] 1%N [])]) []).
Definition md_t30 : ty := (Ty [] [] (TPrimitive PrBool) []).
Definition md_t31 : ty := (Ty ["cumulus_pallet_parachain_system"%string; "pallet"%string; "Event"%string] [("T"%string,None)] (TVariant [(Variant "ValidationFunctionStored"%string [] 0%N ["The validation function has been scheduled to apply."%string]); (Variant "ValidationFunctionApplied"%string [(Field (Some "relay_chain_block_num"%string) 4%N (Some "RelayChainBlockNumber"%string) [])] 1%N ["The validation function was applied as of the contained relay chain block number."%string]); (Variant "ValidationFunctionDiscarded"%string [] 2%N ["The relay-chain aborted the upgrade process."%string]); (Variant "DownwardMessagesReceived"%string [(Field (Some "count"%string) 4%N (Some "u32"%string) [])] 3%N ["Some downward messages have been received and will be processed."%string]); (Variant "DownwardMessagesProcessed"%string [(Field (Some "weight_used"%string) 9%N (Some "Weight"%string) []); (Field (Some "dmq_head"%string) 12%N (Some "relay_chain::Hash"%string) [])] 4%N ["Downward messages were processed using the given weight."%string]); (Variant "UpwardMessageSent"%string [(Field (Some "message_hash"%string) 32%N (Some "Option<XcmHash>"%string) [])] 5%N ["An upward message was sent to the relay chain."%string])]) ["The `Event` enum of this pallet"%string]).
Definition md_t32 : ty := (Ty ["Option"%string] [("T"%string,(Some 1%N))] (TVariant [(Variant "None"%string [] 0%N []); (Variant "Some"%string [(Field None 1%N None [])] 1%N [])]) []).
Definition md_t33 : ty := (Ty ["pallet_balances"%string; "pallet"%string; "Event"%string] [("T"%string,None); ("I"%string,None)] (TVariant [(Variant "Endowed"%string [(Field (Some "account"%string) 0%N (Some "T::AccountId"%string) []); (Field (Some "free_balance"%string) 6%N (Some "T::Balance"%string) [])] 0%N ["An account was created with some free balance."%string]); (Variant "DustLost"%string [(Field (Some "account"%string) 0%N (Some "T::AccountId"%string) []); (Field (Some "amount"%string) 6%N (Some "T::Balance"%string) [])] 1%N ["An account was removed whose balance was non-zero but below ExistentialDeposit,"%string; "resulting in an outright loss."%string]); (Variant "Transfer"%string [(Field (Some "from"%string) 0%N (Some "T::AccountId"%string) []); (Field (Some "to"%string) 0%N (Some "T::AccountId"%string) []); (Field (Some "amount"%string) 6%N (Some "T::Balance"%string) [])] 2%N ["Transfer succeeded."%string]); (Variant "BalanceSet"%string [(Field (Some "who"%string) 0%N (Some "T::AccountId"%string) []); (Field (Some "free"%string) 6%N (Some "T::Balance"%string) [])] 3%N ["A balance was set by root."%string]); (Variant "Reserved"%string [(Field (Some "who"%string) 0%N (Some "T::AccountId"%string) []); (Field (Some "amount"%string) 6%N (Some "T::Balance"%string) [])] 4%N ["Some balance was reserved (moved from free to reserved)."%string]); (Variant "Unreserved"%string [(Field (Some "who"%string) 0%N (Some "T::AccountId"%string) []); (Field (Some "amount"%string) 6%N (Some "T::Balance"%string) [])] 5%N ["Some balance was unreserved (moved from reserved to free)."%string]); (Variant "ReserveRepatriated"%string [(Field (Some "from"%string) 0%N (Some "T::AccountId"%string) []); (Field (Some "to"%string) 0%N (Some "T::AccountId"%string) []); (Field (Some "amount"%string) 6%N (Some "T::Balance"%string) []); (Field (Some "destination_status"%string) 34%N (Some "Status"%string) [])] 6%N ["Some balance was moved from the reserve of the first account to the second account."%string; "Final argument indicates the destination balance type."%string]); (Variant "Deposit"%string [(Field (Some "who"%string) 0%N (Some "T::AccountId"%string) []); (Field (Some "amount"%string) 6%N (Some "T::Balance"%string) [])] 7%N ["Some amount was deposited (e.g. for transaction fees)."%string]); (Variant "Withdraw"%string [(Field (Some "who"%string) 0%N (Some "T::AccountId"%string) []); (Field (Some "amount"%string) 6%N (Some "T::Balance"%string) [])] 8%N ["Some amount was withdrawn from the account (e.g. for transaction fees)."%string]); (Variant "Slashed"%string [(Field (Some "who"%string) 0%N (Some "T::AccountId"%string) []); (Field (Some "amount"%string) 6%N (Some "T::Balance"%string) [])] 9%N ["Some amount was removed from the account (e.g. for misbehavior)."%string]); (Variant "Minted"%string [(Field (Some "who"%string) 0%N (Some "T::AccountId"%string) []); (Field (Some "amount"%string) 6%N (Some "T::Balance"%string) [])] 10%N ["Some amount was minted into an account."%string]); (Variant "Burned"%string [(Field (Some "who"%string) 0%N (Some "T::AccountId"%string) []); (Field (Some "amount"%string) 6%N (Some "T::Balance"%string) [])] 11%N ["Some amount was burned from an account."%string]); (Variant "Suspended"%string [(Field (Some "who"%string) 0%N (Some "T::AccountId"%string) []); (Field (Some "amount"%string) 6%N (Some "T::Balance"%string) [])] 12%N ["Some amount was suspended from an account (it can be restored later)."%string]); (Variant "Restored"%string [(Field (Some "who"%string) 0%N (Some "T::AccountId"%string) []); (Field (Some "amount"%string) 6%N (Some "T::Balance"%string) [])] 13%N ["Some amount was restored into an account."%string]); (Variant "Upgraded"%string [(Field (Some "who"%string) 0%N (Some "T::AccountId"%string) [])] 14%N ["An account was upgraded."%string]); (Variant "Issued"%string [(Field (Some "amount"%string) 6%N (Some "T::Balance"%string) [])] 15%N ["Total issuance was increased by `amount`, creating a credit to be balanced."%string]); (Variant "Rescinded"%string [(Field (Some "amount"%string) 6%N (Some "T::Balance"%string) [])] 16%N ["Total issuance was decreased by `amount`, creating a debt to be balanced."%string]); (Variant "Locked"%string [(Field (Some "who"%string) 0%N (Some "T::AccountId"%string) []); (Field (Some "amount"%string) 6%N (Some "T::Balance"%string) [])] 17%N ["Some balance was locked."%string]); (Variant "Unlocked"%string [(Field (Some "who"%string) 0%N (Some "T::AccountId"%string) []); (Field (Some "amount"%string) 6%N (Some "T::Balance"%string) [])] 18%N ["Some balance was unlocked."%string]); (Variant "Frozen"%string [(Field (Some "who"%string) 0%N (Some "T::AccountId"%string) []); (Field (Some "amount"%string) 6%N (Some "T::Balance"%string) [])] 19%N ["Some balance was frozen."%string]); (Variant "Thawed"%string [(Field (Some "who"%string) 0%N (Some "T::AccountId"%string) []); (Field (Some "amount"%string) 6%N (Some "T::Balance"%string) [])] 20%N ["Some balance was thawed."%string]); (Variant "TotalIssuanceForced"%string [(Field (Some "old"%string) 6%N (Some "T::Balance"%string) []); (Field (Some "new"%string) 6%N (Some "T::Balance"%string) [])] 21%N ["The `TotalIssuance` was forcefully changed."%string])]) ["The `Event` enum of this pallet"%string]).
Definition md_t34 : ty := (Ty ["frame_support"%string; "traits"%string; "tokens"%string; "misc"%string; "BalanceStatus"%string] [] (TVariant [(Variant "Free"%string [] 0%N []); (Variant "Reserved"%string [] 1%N [])]) []).
Definition md_t35 : ty := (Ty ["pallet_transaction_payment"%string; "pallet"%string; "Event"%string] [("T"%string,None)] (TVariant [(Variant "TransactionFeePaid"%string [(Field (Some "who"%string) 0%N (Some "T::AccountId"%string) []); (Field (Some "actual_fee"%string) 6%N (Some "BalanceOf<T>"%string) []); (Field (Some "tip"%string) 6%N (Some "BalanceOf<T>"%string) [])] 0%N ["A transaction fee `actual_fee`, of which `tip` was added to the minimum inclusion fee,"%string; "has been paid by `who`."%string])]) ["The `Event` enum of this pallet"%string]).
Definition md_t36 : ty := (Ty ["pallet_asset_conversion_tx_payment"%string; "pallet"%string; "Event"%string] [("T"%string,None)] (TVariant [(Variant "AssetTxFeePaid"%string [(Field (Some "who"%string) 0%N (Some "T::AccountId"%string) []); (Field (Some "actual_fee"%string) 6%N (Some "AssetBalanceOf<T>"%string) []); (Field (Some "tip"%string) 6%N (Some "BalanceOf<T>"%string) []); (Field (Some "asset_id"%string) 37%N (Some "ChargeAssetIdOf<T>"%string) [])] 0%N ["A transaction fee `actual_fee`, of which `tip` was added to the minimum inclusion fee,"%string; "has been paid by `who` in an asset `asset_id`."%string]); (Variant "AssetRefundFailed"%string [(Field (Some "native_amount_kept"%string) 6%N (Some "BalanceOf<T>"%string) [])] 1%N ["A swap of the refund in native currency back to asset failed."%string])]) ["The `Event` enum of this pallet"%string]).
Definition md_t37 : ty := (Ty ["staging_xcm"%string; "v3"%string; "multilocation"%string; "MultiLocation"%string] [] (TComposite [(Field (Some "parents"%string) 2%N (Some "u8"%string) []); (Field (Some "interior"%string) 38%N (Some "Junctions"%string) [])]) []).
Definition md_t38 : ty := (Ty ["xcm"%string; "v3"%string; "junctions"%string; "Junctions"%string] [] (TVariant [(Variant "Here"%string [] 0%N []); (Variant "X1"%string [(Field None 39%N (Some "Junction"%string) [])] 1%N []); (Variant "X2"%string [(Field None 39%N (Some "Junction"%string) []); (Field None 39%N (Some "Junction"%string) [])] 2%N []); (Variant "X3"%string [(Field None 39%N (Some "Junction"%string) []); (Field None 39%N (Some "Junction"%string) []); (Field None 39%N (Some "Junction"%string) [])] 3%N []); (Variant "X4"%string [(Field None 39%N (Some "Junction"%string) []); (Field None 39%N (Some "Junction"%string) []); (Field None 39%N (Some "Junction"%string) []); (Field None 39%N (Some "Junction"%string) [])] 4%N []); (Variant "X5"%string [(Field None 39%N (Some "Junction"%string) []); (Field None 39%N (Some "Junction"%string) []); (Field None 39%N (Some "Junction"%string) []); (Field None 39%N (Some "Junction"%string) []); (Field None 39%N (Some "Junction"%string) [])] 5%N []); (Variant "X6"%string [(Field None 39%N (Some "Junction"%string) []); (Field None 39%N (Some "Junction"%string) []); (Field None 39%N (Some "Junction"%string) []); (Field None 39%N (Some "Junction"%string) []); (Field None 39%N (Some "Junction"%string) []); (Field None 39%N (Some "Junction"%string) [])] 6%N []); (Variant "X7"%string [(Field None 39%N (Some "Junction"%string) []); (Field None 39%N (Some "Junction"%string) []); (Field None 39%N (Some "Junction"%string) []); (Field None 39%N (Some "Junction"%string) []); (Field None 39%N (Some "Junction"%string) []); (Field None 39%N (Some "Junction"%string) []); (Field None 39%N (Some "Junction"%string) [])] 7%N []); (Variant "X8"%string [(Field None 39%N (Some "Junction"%string) []); (Field None 39%N (Some "Junction"%string) []); (Field None 39%N (Some "Junction"%string) []); (Field None 39%N (Some "Junction"%string) []); (Field None 39%N (Some "Junction"%string) []); (Field None 39%N (Some "Junction"%string) []); (Field None 39%N (Some "Junction"%string) []); (Field None 39%N (Some "Junction"%string) [])] 8%N [])]) []).
Definition md_t39 : ty := (Ty ["xcm"%string; "v3"%string; "junction"%string; "Junction"%string] [] (TVariant [(Variant "Parachain"%string [(Field None 40%N (Some "u32"%string) [])] 0%N []); (Variant "AccountId32"%string [(Field (Some "network"%string) 41%N (Some "Option<NetworkId>"%string) []); (Field (Some "id"%string) 1%N (Some "[u8; 32]"%string) [])] 1%N []); (Variant "AccountIndex64"%string [(Field (Some "network"%string) 41%N (Some "Option<NetworkId>"%string) []); (Field (Some "index"%string) 10%N (Some "u64"%string) [])] 2%N []); (Variant "AccountKey20"%string [(Field (Some "network"%string) 41%N (Some "Option<NetworkId>"%string) []); (Field (Some "key"%string) 43%N (Some "[u8; 20]"%string) [])] 3%N []); (Variant "PalletInstance"%string [(Field None 2%N (Some "u8"%string) [])] 4%N []); (Variant "GeneralIndex"%string [(Field None 44%N (Some "u128"%string) [])] 5%N []); (Variant "GeneralKey"%string [(Field (Some "length"%string) 2%N (Some "u8"%string) []); (Field (Some "data"%string) 1%N (Some "[u8; 32]"%string) [])] 6%N []); (Variant "OnlyChild"%string [] 7%N []); (Variant "Plurality"%string [(Field (Some "id"%string) 45%N (Some "BodyId"%string) []); (Field (Some "part"%string) 46%N (Some "BodyPart"%string) [])] 8%N []); (Variant "GlobalConsensus"%string [(Field None 42%N (Some "NetworkId"%string) [])] 9%N [])]) []).
Definition md_t40 : ty := (Ty [] [] (TCompact 4%N) []).
Definition md_t41 : ty := (Ty ["Option"%string] [("T"%string,(Some 42%N))] (TVariant [(Variant "None"%string [] 0%N []); (Variant "Some"%string [(Field None 42%N None [])] 1%N [])]) []).
Definition md_t42 : ty := (Ty ["xcm"%string; "v3"%string; "junction"%string; "NetworkId"%string] [] (TVariant [(Variant "ByGenesis"%string [(Field None 1%N (Some "[u8; 32]"%string) [])] 0%N []); (Variant "ByFork"%string [(Field (Some "block_number"%string) 11%N (Some "u64"%string) []); (Field (Some "block_hash"%string) 1%N (Some "[u8; 32]"%string) [])] 1%N []); (Variant "Polkadot"%string [] 2%N []); (Variant "Kusama"%string [] 3%N []); (Variant "Westend"%string [] 4%N []); (Variant "Rococo"%string [] 5%N []); (Variant "Wococo"%string [] 6%N []); (Variant "Ethereum"%string [(Field (Some "chain_id"%string) 10%N (Some "u64"%string) [])] 7%N []); (Variant "BitcoinCore"%string [] 8%N []); (Variant "BitcoinCash"%string [] 9%N []); (Variant "PolkadotBulletin"%string [] 10%N [])]) []).
Definition md_t43 : ty := (Ty [] [] (TArray 20%N 2%N) []).
Definition md_t44 : ty := (Ty [] [] (TCompact 6%N) []).
Definition md_t45 : ty := (Ty ["xcm"%string; "v3"%string; "junction"%string; "BodyId"%string] [] (TVariant [(Variant "Unit"%string [] 0%N []); (Variant "Moniker"%string [(Field None 17%N (Some "[u8; 4]"%string) [])] 1%N []); (Variant "Index"%string [(Field None 40%N (Some "u32"%string) [])] 2%N []); (Variant "Executive"%string [] 3%N []); (Variant "Technical"%string [] 4%N []); (Variant "Legislative"%string [] 5%N []); (Variant "Judicial"%string [] 6%N []); (Variant "Defense"%string [] 7%N []); (Variant "Administration"%string [] 8%N []); (Variant "Treasury"%string [] 9%N [])]) []).
Definition md_t46 : ty := (Ty ["xcm"%string; "v3"%string; "junction"%string; "BodyPart"%string] [] (TVariant [(Variant "Voice"%string [] 0%N []); (Variant "Members"%string [(Field (Some "count"%string) 40%N (Some "u32"%string) [])] 1%N []); (Variant "Fraction"%string [(Field (Some "nom"%string) 40%N (Some "u32"%string) []); (Field (Some "denom"%string) 40%N (Some "u32"%string) [])] 2%N []); (Variant "AtLeastProportion"%string [(Field (Some "nom"%string) 40%N (Some "u32"%string) []); (Field (Some "denom"%string) 40%N (Some "u32"%string) [])] 3%N []); (Variant "MoreThanProportion"%string [(Field (Some "nom"%string) 40%N (Some "u32"%string) []); (Field (Some "denom"%string) 40%N (Some "u32"%string) [])] 4%N [])]) []).
Definition md_t47 : ty := (Ty ["pallet_collator_selection"%string; "pallet"%string; "Event"%string] [("T"%string,None)] (TVariant [(Variant "NewInvulnerables"%string [(Field (Some "invulnerables"%string) 48%N (Some "Vec<T::AccountId>"%string) [])] 0%N ["New Invulnerables were set."%string]); (Variant "InvulnerableAdded"%string [(Field (Some "account_id"%string) 0%N (Some "T::AccountId"%string) [])] 1%N ["A new Invulnerable was added."%string]); (Variant "InvulnerableRemoved"%string [(Field (Some "account_id"%string) 0%N (Some "T::AccountId"%string) [])] 2%N ["An Invulnerable was removed."%string]); (Variant "NewDesiredCandidates"%string [(Field (Some "desired_candidates"%string) 4%N (Some "u32"%string) [])] 3%N ["The number of desired candidates was set."%string]); (Variant "NewCandidacyBond"%string [(Field (Some "bond_amount"%string) 6%N (Some "BalanceOf<T>"%string) [])] 4%N ["The candidacy bond was set."%string]); (Variant "CandidateAdded"%string [(Field (Some "account_id"%string) 0%N (Some "T::AccountId"%string) []); (Field (Some "deposit"%string) 6%N (Some "BalanceOf<T>"%string) [])] 5%N ["A new candidate joined."%string]); (Variant "CandidateBondUpdated"%string [(Field (Some "account_id"%string) 0%N (Some "T::AccountId"%string) []); (Field (Some "deposit"%string) 6%N (Some "BalanceOf<T>"%string) [])] 6%N ["Bond of a candidate updated."%string]); (Variant "CandidateRemoved"%string [(Field (Some "account_id"%string) 0%N (Some "T::AccountId"%string) [])] 7%N ["A candidate was removed."%string]); (Variant "CandidateReplaced"%string [(Field (Some "old"%string) 0%N (Some "T::AccountId"%string) []); (Field (Some "new"%string) 0%N (Some "T::AccountId"%string) []); (Field (Some "deposit"%string) 6%N (Some "BalanceOf<T>"%string) [])] 8%N ["An account was replaced in the candidate list by another one."%string]); (Variant "InvalidInvulnerableSkipped"%string [(Field (Some "account_id"%string) 0%N (Some "T::AccountId"%string) [])] 9%N ["An account was unable to be added to the Invulnerables because they did not have keys"%string; "registered. Other Invulnerables may have been set."%string])]) ["The `Event` enum of this pallet"%string]).
Definition md_t48 : ty := (Ty [] [] (TSequence 0%N) []).
Definition md_t49 : ty := (Ty ["pallet_session"%string; "pallet"%string; "Event"%string] [] (TVariant [(Variant "NewSession"%string [(Field (Some "session_index"%string) 4%N (Some "SessionIndex"%string) [])] 0%N ["New session has happened. Note that the argument is the session index, not the"%string; "block number as the type might suggest."%string])]) ["The `Event` enum of this pallet"%string]).
Definition md_t50 : ty := (Ty ["cumulus_pallet_xcmp_queue"%string; "pallet"%string; "Event"%string] [("T"%string,None)] (TVariant [(Variant "XcmpMessageSent"%string [(Field (Some "message_hash"%string) 1%N (Some "XcmHash"%string) [])] 0%N ["An HRMP message was sent to a sibling parachain."%string])]) ["The `Event` enum of this pallet"%string]).
Definition md_t51 : ty := (Ty ["pallet_xcm"%string; "pallet"%string; "Event"%string] [("T"%string,None)] (TVariant [(Variant "Attempted"%string [(Field (Some "outcome"%string) 52%N (Some "xcm::latest::Outcome"%string) [])] 0%N ["Execution of an XCM message was attempted."%string]); (Variant "Sent"%string [(Field (Some "origin"%string) 54%N (Some "Location"%string) []); (Field (Some "destination"%string) 54%N (Some "Location"%string) []); (Field (Some "message"%string) 67%N (Some "Xcm<()>"%string) []); (Field (Some "message_id"%string) 1%N (Some "XcmHash"%string) [])] 1%N ["A XCM message was sent."%string]); (Variant "UnexpectedResponse"%string [(Field (Some "origin"%string) 54%N (Some "Location"%string) []); (Field (Some "query_id"%string) 11%N (Some "QueryId"%string) [])] 2%N ["Query response received which does not match a registered query. This may be because a"%string; "matching query was never registered, it may be because it is a duplicate response, or"%string; "because the query timed out."%string]); (Variant "ResponseReady"%string [(Field (Some "query_id"%string) 11%N (Some "QueryId"%string) []); (Field (Some "response"%string) 78%N (Some "Response"%string) [])] 3%N ["Query response has been received and is ready for taking with `take_response`. There is"%string; "no registered notification call."%string]); (Variant "Notified"%string [(Field (Some "query_id"%string) 11%N (Some "QueryId"%string) []); (Field (Some "pallet_index"%string) 2%N (Some "u8"%string) []); (Field (Some "call_index"%string) 2%N (Some "u8"%string) [])] 4%N ["Query response has been received and query is removed. The registered notification has"%string; "been dispatched and executed successfully."%string]); (Variant "NotifyOverweight"%string [(Field (Some "query_id"%string) 11%N (Some "QueryId"%string) []); (Field (Some "pallet_index"%string) 2%N (Some "u8"%string) []); (Field (Some "call_index"%string) 2%N (Some "u8"%string) []); (Field (Some "actual_weight"%string) 9%N (Some "Weight"%string) []); (Field (Some "max_budgeted_weight"%string) 9%N (Some "Weight"%string) [])] 5%N ["Query response has been received and query is removed. The registered notification"%string; "could not be dispatched because the dispatch weight is greater than the maximum weight"%string; "originally budgeted by this runtime for the query result."%string]); (Variant "NotifyDispatchError"%string [(Field (Some "query_id"%string) 11%N (Some "QueryId"%string) []); (Field (Some "pallet_index"%string) 2%N (Some "u8"%string) []); (Field (Some "call_index"%string) 2%N (Some "u8"%string) [])] 6%N ["Query response has been received and query is removed. There was a general error with"%string; "dispatching the notification call."%string]); (Variant "NotifyDecodeFailed"%string [(Field (Some "query_id"%string) 11%N (Some "QueryId"%string) []); (Field (Some "pallet_index"%string) 2%N (Some "u8"%string) []); (Field (Some "call_index"%string) 2%N (Some "u8"%string) [])] 7%N ["Query response has been received and query is removed. The dispatch was unable to be"%string; "decoded into a `Call`; this might be due to dispatch function having a signature which"%string; "is not `(origin, QueryId, Response)`."%string]); (Variant "InvalidResponder"%string [(Field (Some "origin"%string) 54%N (Some "Location"%string) []); (Field (Some "query_id"%string) 11%N (Some "QueryId"%string) []); (Field (Some "expected_location"%string) 87%N (Some "Option<Location>"%string) [])] 8%N ["Expected query response has been received but the origin location of the response does"%string; "not match that expected. The query remains registered for a later, valid, response to"%string; "be received and acted upon."%string]); (Variant "InvalidResponderVersion"%string [(Field (Some "origin"%string) 54%N (Some "Location"%string) []); (Field (Some "query_id"%string) 11%N (Some "QueryId"%string) [])] 9%N ["Expected query response has been received but the expected origin location placed in"%string; "storage by this runtime previously cannot be decoded. The query remains registered."%string; ""%string; "This is unexpected (since a location placed in storage in a previously executing"%string; "runtime should be readable prior to query timeout) and dangerous since the possibly"%string; "valid response will be dropped. Manual governance intervention is probably going to be"%string; "needed."%string]); (Variant "ResponseTaken"%string [(Field (Some "query_id"%string) 11%N (Some "QueryId"%string) [])] 10%N ["Received query response has been read and removed."%string]); (Variant "AssetsTrapped"%string [(Field (Some "hash"%string) 12%N (Some "H256"%string) []); (Field (Some "origin"%string) 54%N (Some "Location"%string) []); (Field (Some "assets"%string) 95%N (Some "VersionedAssets"%string) [])] 11%N ["Some assets have been placed in an asset trap."%string]); (Variant "VersionChangeNotified"%string [(Field (Some "destination"%string) 54%N (Some "Location"%string) []); (Field (Some "result"%string) 4%N (Some "XcmVersion"%string) []); (Field (Some "cost"%string) 70%N (Some "Assets"%string) []); (Field (Some "message_id"%string) 1%N (Some "XcmHash"%string) [])] 12%N ["An XCM version change notification message has been attempted to be sent."%string; ""%string; "The cost of sending it (borne by the chain) is included."%string]); (Variant "SupportedVersionChanged"%string [(Field (Some "location"%string) 54%N (Some "Location"%string) []); (Field (Some "version"%string) 4%N (Some "XcmVersion"%string) [])] 13%N ["The supported version of a location has been changed. This might be through an"%string; "automatic notification or a manual intervention."%string]); (Variant "NotifyTargetSendFail"%string [(Field (Some "location"%string) 54%N (Some "Location"%string) []); (Field (Some "query_id"%string) 11%N (Some "QueryId"%string) []); (Field (Some "error"%string) 53%N (Some "XcmError"%string) [])] 14%N ["A given location which had a version change subscription was dropped owing to an error"%string; "sending the notification to it."%string]); (Variant "NotifyTargetMigrationFail"%string [(Field (Some "location"%string) 115%N (Some "VersionedLocation"%string) []); (Field (Some "query_id"%string) 11%N (Some "QueryId"%string) [])] 15%N ["A given location which had a version change subscription was dropped owing to an error"%string; "migrating the location to our new XCM format."%string]); (Variant "InvalidQuerierVersion"%string [(Field (Some "origin"%string) 54%N (Some "Location"%string) []); (Field (Some "query_id"%string) 11%N (Some "QueryId"%string) [])] 16%N ["Expected query response has been received but the expected querier location placed in"%string; "storage by this runtime previously cannot be decoded. The query remains registered."%string; ""%string; "This is unexpected (since a location placed in storage in a previously executing"%string; "runtime should be readable prior to query timeout) and dangerous since the possibly"%string; "valid response will be dropped. Manual governance intervention is probably going to be"%string; "needed."%string]); (Variant "InvalidQuerier"%string [(Field (Some "origin"%string) 54%N (Some "Location"%string) []); (Field (Some "query_id"%string) 11%N (Some "QueryId"%string) []); (Field (Some "expected_querier"%string) 54%N (Some "Location"%string) []); (Field (Some "maybe_actual_querier"%string) 87%N (Some "Option<Location>"%string) [])] 17%N ["Expected query response has been received but the querier location of the response does"%string; "not match the expected. The query remains registered for a later, valid, response to"%string; "be received and acted upon."%string]); (Variant "VersionNotifyStarted"%string [(Field (Some "destination"%string) 54%N (Some "Location"%string) []); (Field (Some "cost"%string) 70%N (Some "Assets"%string) []); (Field (Some "message_id"%string) 1%N (Some "XcmHash"%string) [])] 18%N ["A remote has requested XCM version change notification from us and we have honored it."%string; "A version information message is sent to them and its cost is included."%string]); (Variant "VersionNotifyRequested"%string [(Field (Some "destination"%string) 54%N (Some "Location"%string) []); (Field (Some "cost"%string) 70%N (Some "Assets"%string) []); (Field (Some "message_id"%string) 1%N (Some "XcmHash"%string) [])] 19%N ["We have requested that a remote chain send us XCM version change notifications."%string]); (Variant "VersionNotifyUnrequested"%string [(Field (Some "destination"%string) 54%N (Some "Location"%string) []); (Field (Some "cost"%string) 70%N (Some "Assets"%string) []); (Field (Some "message_id"%string) 1%N (Some "XcmHash"%string) [])] 20%N ["We have requested that a remote chain stops sending us XCM version change"%string; "notifications."%string]); (Variant "FeesPaid"%string [(Field (Some "paying"%string) 54%N (Some "Location"%string) []); (Field (Some "fees"%string) 70%N (Some "Assets"%string) [])] 21%N ["Fees were paid from a location for an operation (often for using `SendXcm`)."%string]); (Variant "AssetsClaimed"%string [(Field (Some "hash"%string) 12%N (Some "H256"%string) []); (Field (Some "origin"%string) 54%N (Some "Location"%string) []); (Field (Some "assets"%string) 95%N (Some "VersionedAssets"%string) [])] 22%N ["Some assets have been claimed from an asset trap"%string]); (Variant "VersionMigrationFinished"%string [(Field (Some "version"%string) 4%N (Some "XcmVersion"%string) [])] 23%N ["A XCM version migration finished."%string])]) ["The `Event` enum of this pallet"%string]).
Definition md_t52 : ty := (Ty ["staging_xcm"%string; "v4"%string; "traits"%string; "Outcome"%string] [] (TVariant [(Variant "Complete"%string [(Field (Some "used"%string) 9%N (Some "Weight"%string) [])] 0%N []); (Variant "Incomplete"%string [(Field (Some "used"%string) 9%N (Some "Weight"%string) []); (Field (Some "error"%string) 53%N (Some "Error"%string) [])] 1%N []); (Variant "Error"%string [(Field (Some "error"%string) 53%N (Some "Error"%string) [])] 2%N [])]) []).
Definition md_t53 : ty := (Ty ["xcm"%string; "v3"%string; "traits"%string; "Error"%string] [] (TVariant [(Variant "Overflow"%string [] 0%N []); (Variant "Unimplemented"%string [] 1%N []); (Variant "UntrustedReserveLocation"%string [] 2%N []); (Variant "UntrustedTeleportLocation"%string [] 3%N []); (Variant "LocationFull"%string [] 4%N []); (Variant "LocationNotInvertible"%string [] 5%N []); (Variant "BadOrigin"%string [] 6%N []); (Variant "InvalidLocation"%string [] 7%N []); (Variant "AssetNotFound"%string [] 8%N []); (Variant "FailedToTransactAsset"%string [] 9%N []); (Variant "NotWithdrawable"%string [] 10%N []); (Variant "LocationCannotHold"%string [] 11%N []); (Variant "ExceedsMaxMessageSize"%string [] 12%N []); (Variant "DestinationUnsupported"%string [] 13%N []); (Variant "Transport"%string [] 14%N []); (Variant "Unroutable"%string [] 15%N []); (Variant "UnknownClaim"%string [] 16%N []); (Variant "FailedToDecode"%string [] 17%N []); (Variant "MaxWeightInvalid"%string [] 18%N []); (Variant "NotHoldingFees"%string [] 19%N []); (Variant "TooExpensive"%string [] 20%N []); (Variant "Trap"%string [(Field None 11%N (Some "u64"%string) [])] 21%N []); (Variant "ExpectationFalse"%string [] 22%N []); (Variant "PalletNotFound"%string [] 23%N []); (Variant "NameMismatch"%string [] 24%N []); (Variant "VersionIncompatible"%string [] 25%N []); (Variant "HoldingWouldOverflow"%string [] 26%N []); (Variant "ExportError"%string [] 27%N []); (Variant "ReanchorFailed"%string [] 28%N []); (Variant "NoDeal"%string [] 29%N []); (Variant "FeesNotMet"%string [] 30%N []); (Variant "LockError"%string [] 31%N []); (Variant "NoPermission"%string [] 32%N []); (Variant "Unanchored"%string [] 33%N []); (Variant "NotDepositable"%string [] 34%N []); (Variant "UnhandledXcmVersion"%string [] 35%N []); (Variant "WeightLimitReached"%string [(Field None 9%N (Some "Weight"%string) [])] 36%N []); (Variant "Barrier"%string [] 37%N []); (Variant "WeightNotComputable"%string [] 38%N []); (Variant "ExceedsStackLimit"%string [] 39%N [])]) []).
Definition md_t54 : ty := (Ty ["staging_xcm"%string; "v4"%string; "location"%string; "Location"%string] [] (TComposite [(Field (Some "parents"%string) 2%N (Some "u8"%string) []); (Field (Some "interior"%string) 55%N (Some "Junctions"%string) [])]) []).
Definition md_t55 : ty := (Ty ["staging_xcm"%string; "v4"%string; "junctions"%string; "Junctions"%string] [] (TVariant [(Variant "Here"%string [] 0%N []); (Variant "X1"%string [(Field None 56%N (Some "Arc<[Junction; 1]>"%string) [])] 1%N []); (Variant "X2"%string [(Field None 60%N (Some "Arc<[Junction; 2]>"%string) [])] 2%N []); (Variant "X3"%string [(Field None 61%N (Some "Arc<[Junction; 3]>"%string) [])] 3%N []); (Variant "X4"%string [(Field None 62%N (Some "Arc<[Junction; 4]>"%string) [])] 4%N []); (Variant "X5"%string [(Field None 63%N (Some "Arc<[Junction; 5]>"%string) [])] 5%N []); (Variant "X6"%string [(Field None 64%N (Some "Arc<[Junction; 6]>"%string) [])] 6%N []); (Variant "X7"%string [(Field None 65%N (Some "Arc<[Junction; 7]>"%string) [])] 7%N []); (Variant "X8"%string [(Field None 66%N (Some "Arc<[Junction; 8]>"%string) [])] 8%N [])]) []).
Definition md_t56 : ty := (Ty [] [] (TArray 1%N 57%N) []).
Definition md_t57 : ty := (Ty ["staging_xcm"%string; "v4"%string; "junction"%string; "Junction"%string] [] (TVariant [(Variant "Parachain"%string [(Field None 40%N (Some "u32"%string) [])] 0%N []); (Variant "AccountId32"%string [(Field (Some "network"%string) 58%N (Some "Option<NetworkId>"%string) []); (Field (Some "id"%string) 1%N (Some "[u8; 32]"%string) [])] 1%N []); (Variant "AccountIndex64"%string [(Field (Some "network"%string) 58%N (Some "Option<NetworkId>"%string) []); (Field (Some "index"%string) 10%N (Some "u64"%string) [])] 2%N []); (Variant "AccountKey20"%string [(Field (Some "network"%string) 58%N (Some "Option<NetworkId>"%string) []); (Field (Some "key"%string) 43%N (Some "[u8; 20]"%string) [])] 3%N []); (Variant "PalletInstance"%string [(Field None 2%N (Some "u8"%string) [])] 4%N []); (Variant "GeneralIndex"%string [(Field None 44%N (Some "u128"%string) [])] 5%N []); (Variant "GeneralKey"%string [(Field (Some "length"%string) 2%N (Some "u8"%string) []); (Field (Some "data"%string) 1%N (Some "[u8; 32]"%string) [])] 6%N []); (Variant "OnlyChild"%string [] 7%N []); (Variant "Plurality"%string [(Field (Some "id"%string) 45%N (Some "BodyId"%string) []); (Field (Some "part"%string) 46%N (Some "BodyPart"%string) [])] 8%N []); (Variant "GlobalConsensus"%string [(Field None 59%N (Some "NetworkId"%string) [])] 9%N [])]) []).
Definition md_t58 : ty := (Ty ["Option"%string] [("T"%string,(Some 59%N))] (TVariant [(Variant "None"%string [] 0%N []); (Variant "Some"%string [(Field None 59%N None [])] 1%N [])]) []).
Definition md_t59 : ty := (Ty ["staging_xcm"%string; "v4"%string; "junction"%string; "NetworkId"%string] [] (TVariant [(Variant "ByGenesis"%string [(Field None 1%N (Some "[u8; 32]"%string) [])] 0%N []); (Variant "ByFork"%string [(Field (Some "block_number"%string) 11%N (Some "u64"%string) []); (Field (Some "block_hash"%string) 1%N (Some "[u8; 32]"%string) [])] 1%N []); (Variant "Polkadot"%string [] 2%N []); (Variant "Kusama"%string [] 3%N []); (Variant "Westend"%string [] 4%N []); (Variant "Rococo"%string [] 5%N []); (Variant "Wococo"%string [] 6%N []); (Variant "Ethereum"%string [(Field (Some "chain_id"%string) 10%N (Some "u64"%string) [])] 7%N []); (Variant "BitcoinCore"%string [] 8%N []); (Variant "BitcoinCash"%string [] 9%N []); (Variant "PolkadotBulletin"%string [] 10%N [])]) []).
Definition md_t60 : ty := (Ty [] [] (TArray 2%N 57%N) []).
Definition md_t61 : ty := (Ty [] [] (TArray 3%N 57%N) []).
Definition md_t62 : ty := (Ty [] [] (TArray 4%N 57%N) []).
Definition md_t63 : ty := (Ty [] [] (TArray 5%N 57%N) []).
Definition md_t64 : ty := (Ty [] [] (TArray 6%N 57%N) []).
Definition md_t65 : ty := (Ty [] [] (TArray 7%N 57%N) []).
Definition md_t66 : ty := (Ty [] [] (TArray 8%N 57%N) []).
Definition md_t67 : ty := (Ty ["staging_xcm"%string; "v4"%string; "Xcm"%string] [("Call"%string,None)] (TComposite [(Field None 68%N (Some "Vec<Instruction<Call>>"%string) [])]) []).
Definition md_t68 : ty := (Ty [] [] (TSequence 69%N) []).
Definition md_t69 : ty := (Ty ["staging_xcm"%string; "v4"%string; "Instruction"%string] [("Call"%string,None)] (TVariant [(Variant "WithdrawAsset"%string [(Field None 70%N (Some "Assets"%string) [])] 0%N []); (Variant "ReserveAssetDeposited"%string [(Field None 70%N (Some "Assets"%string) [])] 1%N []); (Variant "ReceiveTeleportedAsset"%string [(Field None 70%N (Some "Assets"%string) [])] 2%N []); (Variant "QueryResponse"%string [(Field (Some "query_id"%string) 10%N (Some "QueryId"%string) []); (Field (Some "response"%string) 78%N (Some "Response"%string) []); (Field (Some "max_weight"%string) 9%N (Some "Weight"%string) []); (Field (Some "querier"%string) 87%N (Some "Option<Location>"%string) [])] 3%N []); (Variant "TransferAsset"%string [(Field (Some "assets"%string) 70%N (Some "Assets"%string) []); (Field (Some "beneficiary"%string) 54%N (Some "Location"%string) [])] 4%N []); (Variant "TransferReserveAsset"%string [(Field (Some "assets"%string) 70%N (Some "Assets"%string) []); (Field (Some "dest"%string) 54%N (Some "Location"%string) []); (Field (Some "xcm"%string) 67%N (Some "Xcm<()>"%string) [])] 5%N []); (Variant "Transact"%string [(Field (Some "origin_kind"%string) 88%N (Some "OriginKind"%string) []); (Field (Some "require_weight_at_most"%string) 9%N (Some "Weight"%string) []); (Field (Some "call"%string) 89%N (Some "DoubleEncoded<Call>"%string) [])] 6%N []); (Variant "HrmpNewChannelOpenRequest"%string [(Field (Some "sender"%string) 40%N (Some "u32"%string) []); (Field (Some "max_message_size"%string) 40%N (Some "u32"%string) []); (Field (Some "max_capacity"%string) 40%N (Some "u32"%string) [])] 7%N []); (Variant "HrmpChannelAccepted"%string [(Field (Some "recipient"%string) 40%N (Some "u32"%string) [])] 8%N []); (Variant "HrmpChannelClosing"%string [(Field (Some "initiator"%string) 40%N (Some "u32"%string) []); (Field (Some "sender"%string) 40%N (Some "u32"%string) []); (Field (Some "recipient"%string) 40%N (Some "u32"%string) [])] 9%N []); (Variant "ClearOrigin"%string [] 10%N []); (Variant "DescendOrigin"%string [(Field None 55%N (Some "InteriorLocation"%string) [])] 11%N []); (Variant "ReportError"%string [(Field None 90%N (Some "QueryResponseInfo"%string) [])] 12%N []); (Variant "DepositAsset"%string [(Field (Some "assets"%string) 91%N (Some "AssetFilter"%string) []); (Field (Some "beneficiary"%string) 54%N (Some "Location"%string) [])] 13%N []); (Variant "DepositReserveAsset"%string [(Field (Some "assets"%string) 91%N (Some "AssetFilter"%string) []); (Field (Some "dest"%string) 54%N (Some "Location"%string) []); (Field (Some "xcm"%string) 67%N (Some "Xcm<()>"%string) [])] 14%N []); (Variant "ExchangeAsset"%string [(Field (Some "give"%string) 91%N (Some "AssetFilter"%string) []); (Field (Some "want"%string) 70%N (Some "Assets"%string) []); (Field (Some "maximal"%string) 30%N (Some "bool"%string) [])] 15%N []); (Variant "InitiateReserveWithdraw"%string [(Field (Some "assets"%string) 91%N (Some "AssetFilter"%string) []); (Field (Some "reserve"%string) 54%N (Some "Location"%string) []); (Field (Some "xcm"%string) 67%N (Some "Xcm<()>"%string) [])] 16%N []); (Variant "InitiateTeleport"%string [(Field (Some "assets"%string) 91%N (Some "AssetFilter"%string) []); (Field (Some "dest"%string) 54%N (Some "Location"%string) []); (Field (Some "xcm"%string) 67%N (Some "Xcm<()>"%string) [])] 17%N []); (Variant "ReportHolding"%string [(Field (Some "response_info"%string) 90%N (Some "QueryResponseInfo"%string) []); (Field (Some "assets"%string) 91%N (Some "AssetFilter"%string) [])] 18%N []); (Variant "BuyExecution"%string [(Field (Some "fees"%string) 72%N (Some "Asset"%string) []); (Field (Some "weight_limit"%string) 94%N (Some "WeightLimit"%string) [])] 19%N []); (Variant "RefundSurplus"%string [] 20%N []); (Variant "SetErrorHandler"%string [(Field None 67%N (Some "Xcm<Call>"%string) [])] 21%N []); (Variant "SetAppendix"%string [(Field None 67%N (Some "Xcm<Call>"%string) [])] 22%N []); (Variant "ClearError"%string [] 23%N []); (Variant "ClaimAsset"%string [(Field (Some "assets"%string) 70%N (Some "Assets"%string) []); (Field (Some "ticket"%string) 54%N (Some "Location"%string) [])] 24%N []); (Variant "Trap"%string [(Field None 10%N (Some "u64"%string) [])] 25%N []); (Variant "SubscribeVersion"%string [(Field (Some "query_id"%string) 10%N (Some "QueryId"%string) []); (Field (Some "max_response_weight"%string) 9%N (Some "Weight"%string) [])] 26%N []); (Variant "UnsubscribeVersion"%string [] 27%N []); (Variant "BurnAsset"%string [(Field None 70%N (Some "Assets"%string) [])] 28%N []); (Variant "ExpectAsset"%string [(Field None 70%N (Some "Assets"%string) [])] 29%N []); (Variant "ExpectOrigin"%string [(Field None 87%N (Some "Option<Location>"%string) [])] 30%N []); (Variant "ExpectError"%string [(Field None 79%N (Some "Option<(u32, Error)>"%string) [])] 31%N []); (Variant "ExpectTransactStatus"%string [(Field None 85%N (Some "MaybeErrorCode"%string) [])] 32%N []); (Variant "QueryPallet"%string [(Field (Some "module_name"%string) 13%N (Some "Vec<u8>"%string) []); (Field (Some "response_info"%string) 90%N (Some "QueryResponseInfo"%string) [])] 33%N []); (Variant "ExpectPallet"%string [(Field (Some "index"%string) 40%N (Some "u32"%string) []); (Field (Some "name"%string) 13%N (Some "Vec<u8>"%string) []); (Field (Some "module_name"%string) 13%N (Some "Vec<u8>"%string) []); (Field (Some "crate_major"%string) 40%N (Some "u32"%string) []); (Field (Some "min_crate_minor"%string) 40%N (Some "u32"%string) [])] 34%N []); (Variant "ReportTransactStatus"%string [(Field None 90%N (Some "QueryResponseInfo"%string) [])] 35%N []); (Variant "ClearTransactStatus"%string [] 36%N []); (Variant "UniversalOrigin"%string [(Field None 57%N (Some "Junction"%string) [])] 37%N []); (Variant "ExportMessage"%string [(Field (Some "network"%string) 59%N (Some "NetworkId"%string) []); (Field (Some "destination"%string) 55%N (Some "InteriorLocation"%string) []); (Field (Some "xcm"%string) 67%N (Some "Xcm<()>"%string) [])] 38%N []); (Variant "LockAsset"%string [(Field (Some "asset"%string) 72%N (Some "Asset"%string) []); (Field (Some "unlocker"%string) 54%N (Some "Location"%string) [])] 39%N []); (Variant "UnlockAsset"%string [(Field (Some "asset"%string) 72%N (Some "Asset"%string) []); (Field (Some "target"%string) 54%N (Some "Location"%string) [])] 40%N []); (Variant "NoteUnlockable"%string [(Field (Some "asset"%string) 72%N (Some "Asset"%string) []); (Field (Some "owner"%string) 54%N (Some "Location"%string) [])] 41%N []); (Variant "RequestUnlock"%string [(Field (Some "asset"%string) 72%N (Some "Asset"%string) []); (Field (Some "locker"%string) 54%N (Some "Location"%string) [])] 42%N []); (Variant "SetFeesMode"%string [(Field (Some "jit_withdraw"%string) 30%N (Some "bool"%string) [])] 43%N []); (Variant "SetTopic"%string [(Field None 1%N (Some "[u8; 32]"%string) [])] 44%N []); (Variant "ClearTopic"%string [] 45%N []); (Variant "AliasOrigin"%string [(Field None 54%N (Some "Location"%string) [])] 46%N []); (Variant "UnpaidExecution"%string [(Field (Some "weight_limit"%string) 94%N (Some "WeightLimit"%string) []); (Field (Some "check_origin"%string) 87%N (Some "Option<Location>"%string) [])] 47%N [])]) []).
Definition md_t70 : ty := (Ty ["staging_xcm"%string; "v4"%string; "asset"%string; "Assets"%string] [] (TComposite [(Field None 71%N (Some "Vec<Asset>"%string) [])]) []).
Definition md_t71 : ty := (Ty [] [] (TSequence 72%N) []).
Definition md_t72 : ty := (Ty ["staging_xcm"%string; "v4"%string; "asset"%string; "Asset"%string] [] (TComposite [(Field (Some "id"%string) 73%N (Some "AssetId"%string) []); (Field (Some "fun"%string) 74%N (Some "Fungibility"%string) [])]) []).
Definition md_t73 : ty := (Ty ["staging_xcm"%string; "v4"%string; "asset"%string; "AssetId"%string] [] (TComposite [(Field None 54%N (Some "Location"%string) [])]) []).
Definition md_t74 : ty := (Ty ["staging_xcm"%string; "v4"%string; "asset"%string; "Fungibility"%string] [] (TVariant [(Variant "Fungible"%string [(Field None 44%N (Some "u128"%string) [])] 0%N []); (Variant "NonFungible"%string [(Field None 75%N (Some "AssetInstance"%string) [])] 1%N [])]) []).
Definition md_t75 : ty := (Ty ["staging_xcm"%string; "v4"%string; "asset"%string; "AssetInstance"%string] [] (TVariant [(Variant "Undefined"%string [] 0%N []); (Variant "Index"%string [(Field None 44%N (Some "u128"%string) [])] 1%N []); (Variant "Array4"%string [(Field None 17%N (Some "[u8; 4]"%string) [])] 2%N []); (Variant "Array8"%string [(Field None 76%N (Some "[u8; 8]"%string) [])] 3%N []); (Variant "Array16"%string [(Field None 77%N (Some "[u8; 16]"%string) [])] 4%N []); (Variant "Array32"%string [(Field None 1%N (Some "[u8; 32]"%string) [])] 5%N [])]) []).
Definition md_t76 : ty := (Ty [] [] (TArray 8%N 2%N) []).
Definition md_t77 : ty := (Ty [] [] (TArray 16%N 2%N) []).
Definition md_t78 : ty := (Ty ["staging_xcm"%string; "v4"%string; "Response"%string] [] (TVariant [(Variant "Null"%string [] 0%N []); (Variant "Assets"%string [(Field None 70%N (Some "Assets"%string) [])] 1%N []); (Variant "ExecutionResult"%string [(Field None 79%N (Some "Option<(u32, Error)>"%string) [])] 2%N []); (Variant "Version"%string [(Field None 4%N (Some "super::Version"%string) [])] 3%N []); (Variant "PalletsInfo"%string [(Field None 81%N (Some "BoundedVec<PalletInfo, MaxPalletsInfo>"%string) [])] 4%N []); (Variant "DispatchResult"%string [(Field None 85%N (Some "MaybeErrorCode"%string) [])] 5%N [])]) []).
Definition md_t79 : ty := (Ty ["Option"%string] [("T"%string,(Some 80%N))] (TVariant [(Variant "None"%string [] 0%N []); (Variant "Some"%string [(Field None 80%N None [])] 1%N [])]) []).
Definition md_t80 : ty := (Ty [] [] (TTuple [4%N; 53%N]) []).
Definition md_t81 : ty := (Ty ["bounded_collections"%string; "bounded_vec"%string; "BoundedVec"%string] [("T"%string,(Some 82%N)); ("S"%string,None)] (TComposite [(Field None 84%N (Some "Vec<T>"%string) [])]) []).
Definition md_t82 : ty := (Ty ["staging_xcm"%string; "v4"%string; "PalletInfo"%string] [] (TComposite [(Field (Some "index"%string) 40%N (Some "u32"%string) []); (Field (Some "name"%string) 83%N (Some "BoundedVec<u8, MaxPalletNameLen>"%string) []); (Field (Some "module_name"%string) 83%N (Some "BoundedVec<u8, MaxPalletNameLen>"%string) []); (Field (Some "major"%string) 40%N (Some "u32"%string) []); (Field (Some "minor"%string) 40%N (Some "u32"%string) []); (Field (Some "patch"%string) 40%N (Some "u32"%string) [])]) []).
Definition md_t83 : ty := (Ty ["bounded_collections"%string; "bounded_vec"%string; "BoundedVec"%string] [("T"%string,(Some 2%N)); ("S"%string,None)] (TComposite [(Field None 13%N (Some "Vec<T>"%string) [])]) []).
Definition md_t84 : ty := (Ty [] [] (TSequence 82%N) []).
Definition md_t85 : ty := (Ty ["xcm"%string; "v3"%string; "MaybeErrorCode"%string] [] (TVariant [(Variant "Success"%string [] 0%N []); (Variant "Error"%string [(Field None 86%N (Some "BoundedVec<u8, MaxDispatchErrorLen>"%string) [])] 1%N []); (Variant "TruncatedError"%string [(Field None 86%N (Some "BoundedVec<u8, MaxDispatchErrorLen>"%string) [])] 2%N [])]) []).
Definition md_t86 : ty := (Ty ["bounded_collections"%string; "bounded_vec"%string; "BoundedVec"%string] [("T"%string,(Some 2%N)); ("S"%string,None)] (TComposite [(Field None 13%N (Some "Vec<T>"%string) [])]) []).
Definition md_t87 : ty := (Ty ["Option"%string] [("T"%string,(Some 54%N))] (TVariant [(Variant "None"%string [] 0%N []); (Variant "Some"%string [(Field None 54%N None [])] 1%N [])]) []).
Definition md_t88 : ty := (Ty ["xcm"%string; "v2"%string; "OriginKind"%string] [] (TVariant [(Variant "Native"%string [] 0%N []); (Variant "SovereignAccount"%string [] 1%N []); (Variant "Superuser"%string [] 2%N []); (Variant "Xcm"%string [] 3%N [])]) []).
Definition md_t89 : ty := (Ty ["xcm"%string; "double_encoded"%string; "DoubleEncoded"%string] [("T"%string,None)] (TComposite [(Field (Some "encoded"%string) 13%N (Some "Vec<u8>"%string) [])]) []).
Definition md_t90 : ty := (Ty ["staging_xcm"%string; "v4"%string; "QueryResponseInfo"%string] [] (TComposite [(Field (Some "destination"%string) 54%N (Some "Location"%string) []); (Field (Some "query_id"%string) 10%N (Some "QueryId"%string) []); (Field (Some "max_weight"%string) 9%N (Some "Weight"%string) [])]) []).
Definition md_t91 : ty := (Ty ["staging_xcm"%string; "v4"%string; "asset"%string; "AssetFilter"%string] [] (TVariant [(Variant "Definite"%string [(Field None 70%N (Some "Assets"%string) [])] 0%N []); (Variant "Wild"%string [(Field None 92%N (Some "WildAsset"%string) [])] 1%N [])]) []).
Definition md_t92 : ty := (Ty ["staging_xcm"%string; "v4"%string; "asset"%string; "WildAsset"%string] [] (TVariant [(Variant "All"%string [] 0%N []); (Variant "AllOf"%string [(Field (Some "id"%string) 73%N (Some "AssetId"%string) []); (Field (Some "fun"%string) 93%N (Some "WildFungibility"%string) [])] 1%N []); (Variant "AllCounted"%string [(Field None 40%N (Some "u32"%string) [])] 2%N []); (Variant "AllOfCounted"%string [(Field (Some "id"%string) 73%N (Some "AssetId"%string) []); (Field (Some "fun"%string) 93%N (Some "WildFungibility"%string) []); (Field (Some "count"%string) 40%N (Some "u32"%string) [])] 3%N [])]) []).
Definition md_t93 : ty := (Ty ["staging_xcm"%string; "v4"%string; "asset"%string; "WildFungibility"%string] [] (TVariant [(Variant "Fungible"%string [] 0%N []); (Variant "NonFungible"%string [] 1%N [])]) []).
Definition md_t94 : ty := (Ty ["xcm"%string; "v3"%string; "WeightLimit"%string] [] (TVariant [(Variant "Unlimited"%string [] 0%N []); (Variant "Limited"%string [(Field None 9%N (Some "Weight"%string) [])] 1%N [])]) []).
Definition md_t95 : ty := (Ty ["xcm"%string; "VersionedAssets"%string] [] (TVariant [(Variant "V2"%string [(Field None 96%N (Some "v2::MultiAssets"%string) [])] 1%N []); (Variant "V3"%string [(Field None 109%N (Some "v3::MultiAssets"%string) [])] 3%N []); (Variant "V4"%string [(Field None 70%N (Some "v4::Assets"%string) [])] 4%N [])]) []).
Definition md_t96 : ty := (Ty ["xcm"%string; "v2"%string; "multiasset"%string; "MultiAssets"%string] [] (TComposite [(Field None 97%N (Some "Vec<MultiAsset>"%string) [])]) []).
Definition md_t97 : ty := (Ty [] [] (TSequence 98%N) []).
Definition md_t98 : ty := (Ty ["xcm"%string; "v2"%string; "multiasset"%string; "MultiAsset"%string] [] (TComposite [(Field (Some "id"%string) 99%N (Some "AssetId"%string) []); (Field (Some "fun"%string) 107%N (Some "Fungibility"%string) [])]) []).
Definition md_t99 : ty := (Ty ["xcm"%string; "v2"%string; "multiasset"%string; "AssetId"%string] [] (TVariant [(Variant "Concrete"%string [(Field None 100%N (Some "MultiLocation"%string) [])] 0%N []); (Variant "Abstract"%string [(Field None 13%N (Some "Vec<u8>"%string) [])] 1%N [])]) []).
Definition md_t100 : ty := (Ty ["xcm"%string; "v2"%string; "multilocation"%string; "MultiLocation"%string] [] (TComposite [(Field (Some "parents"%string) 2%N (Some "u8"%string) []); (Field (Some "interior"%string) 101%N (Some "Junctions"%string) [])]) []).
Definition md_t101 : ty := (Ty ["xcm"%string; "v2"%string; "multilocation"%string; "Junctions"%string] [] (TVariant [(Variant "Here"%string [] 0%N []); (Variant "X1"%string [(Field None 102%N (Some "Junction"%string) [])] 1%N []); (Variant "X2"%string [(Field None 102%N (Some "Junction"%string) []); (Field None 102%N (Some "Junction"%string) [])] 2%N []); (Variant "X3"%string [(Field None 102%N (Some "Junction"%string) []); (Field None 102%N (Some "Junction"%string) []); (Field None 102%N (Some "Junction"%string) [])] 3%N []); (Variant "X4"%string [(Field None 102%N (Some "Junction"%string) []); (Field None 102%N (Some "Junction"%string) []); (Field None 102%N (Some "Junction"%string) []); (Field None 102%N (Some "Junction"%string) [])] 4%N []); (Variant "X5"%string [(Field None 102%N (Some "Junction"%string) []); (Field None 102%N (Some "Junction"%string) []); (Field None 102%N (Some "Junction"%string) []); (Field None 102%N (Some "Junction"%string) []); (Field None 102%N (Some "Junction"%string) [])] 5%N []); (Variant "X6"%string [(Field None 102%N (Some "Junction"%string) []); (Field None 102%N (Some "Junction"%string) []); (Field None 102%N (Some "Junction"%string) []); (Field None 102%N (Some "Junction"%string) []); (Field None 102%N (Some "Junction"%string) []); (Field None 102%N (Some "Junction"%string) [])] 6%N []); (Variant "X7"%string [(Field None 102%N (Some "Junction"%string) []); (Field None 102%N (Some "Junction"%string) []); (Field None 102%N (Some "Junction"%string) []); (Field None 102%N (Some "Junction"%string) []); (Field None 102%N (Some "Junction"%string) []); (Field None 102%N (Some "Junction"%string) []); (Field None 102%N (Some "Junction"%string) [])] 7%N []); (Variant "X8"%string [(Field None 102%N (Some "Junction"%string) []); (Field None 102%N (Some "Junction"%string) []); (Field None 102%N (Some "Junction"%string) []); (Field None 102%N (Some "Junction"%string) []); (Field None 102%N (Some "Junction"%string) []); (Field None 102%N (Some "Junction"%string) []); (Field None 102%N (Some "Junction"%string) []); (Field None 102%N (Some "Junction"%string) [])] 8%N [])]) []).
Definition md_t102 : ty := (Ty ["xcm"%string; "v2"%string; "junction"%string; "Junction"%string] [] (TVariant [(Variant "Parachain"%string [(Field None 40%N (Some "u32"%string) [])] 0%N []); (Variant "AccountId32"%string [(Field (Some "network"%string) 103%N (Some "NetworkId"%string) []); (Field (Some "id"%string) 1%N (Some "[u8; 32]"%string) [])] 1%N []); (Variant "AccountIndex64"%string [(Field (Some "network"%string) 103%N (Some "NetworkId"%string) []); (Field (Some "index"%string) 10%N (Some "u64"%string) [])] 2%N []); (Variant "AccountKey20"%string [(Field (Some "network"%string) 103%N (Some "NetworkId"%string) []); (Field (Some "key"%string) 43%N (Some "[u8; 20]"%string) [])] 3%N []); (Variant "PalletInstance"%string [(Field None 2%N (Some "u8"%string) [])] 4%N []); (Variant "GeneralIndex"%string [(Field None 44%N (Some "u128"%string) [])] 5%N []); (Variant "GeneralKey"%string [(Field None 104%N (Some "WeakBoundedVec<u8, ConstU32<32>>"%string) [])] 6%N []); (Variant "OnlyChild"%string [] 7%N []); (Variant "Plurality"%string [(Field (Some "id"%string) 105%N (Some "BodyId"%string) []); (Field (Some "part"%string) 106%N (Some "BodyPart"%string) [])] 8%N [])]) []).
Definition md_t103 : ty := (Ty ["xcm"%string; "v2"%string; "NetworkId"%string] [] (TVariant [(Variant "Any"%string [] 0%N []); (Variant "Named"%string [(Field None 104%N (Some "WeakBoundedVec<u8, ConstU32<32>>"%string) [])] 1%N []); (Variant "Polkadot"%string [] 2%N []); (Variant "Kusama"%string [] 3%N [])]) []).
Definition md_t104 : ty := (Ty ["bounded_collections"%string; "weak_bounded_vec"%string; "WeakBoundedVec"%string] [("T"%string,(Some 2%N)); ("S"%string,None)] (TComposite [(Field None 13%N (Some "Vec<T>"%string) [])]) []).
Definition md_t105 : ty := (Ty ["xcm"%string; "v2"%string; "BodyId"%string] [] (TVariant [(Variant "Unit"%string [] 0%N []); (Variant "Named"%string [(Field None 104%N (Some "WeakBoundedVec<u8, ConstU32<32>>"%string) [])] 1%N []); (Variant "Index"%string [(Field None 40%N (Some "u32"%string) [])] 2%N []); (Variant "Executive"%string [] 3%N []); (Variant "Technical"%string [] 4%N []); (Variant "Legislative"%string [] 5%N []); (Variant "Judicial"%string [] 6%N []); (Variant "Defense"%string [] 7%N []); (Variant "Administration"%string [] 8%N []); (Variant "Treasury"%string [] 9%N [])]) []).
Definition md_t106 : ty := (Ty ["xcm"%string; "v2"%string; "BodyPart"%string] [] (TVariant [(Variant "Voice"%string [] 0%N []); (Variant "Members"%string [(Field (Some "count"%string) 40%N (Some "u32"%string) [])] 1%N []); (Variant "Fraction"%string [(Field (Some "nom"%string) 40%N (Some "u32"%string) []); (Field (Some "denom"%string) 40%N (Some "u32"%string) [])] 2%N []); (Variant "AtLeastProportion"%string [(Field (Some "nom"%string) 40%N (Some "u32"%string) []); (Field (Some "denom"%string) 40%N (Some "u32"%string) [])] 3%N []); (Variant "MoreThanProportion"%string [(Field (Some "nom"%string) 40%N (Some "u32"%string) []); (Field (Some "denom"%string) 40%N (Some "u32"%string) [])] 4%N [])]) []).
Definition md_t107 : ty := (Ty ["xcm"%string; "v2"%string; "multiasset"%string; "Fungibility"%string] [] (TVariant [(Variant "Fungible"%string [(Field None 44%N (Some "u128"%string) [])] 0%N []); (Variant "NonFungible"%string [(Field None 108%N (Some "AssetInstance"%string) [])] 1%N [])]) []).
Definition md_t108 : ty := (Ty ["xcm"%string; "v2"%string; "multiasset"%string; "AssetInstance"%string] [] (TVariant [(Variant "Undefined"%string [] 0%N []); (Variant "Index"%string [(Field None 44%N (Some "u128"%string) [])] 1%N []); (Variant "Array4"%string [(Field None 17%N (Some "[u8; 4]"%string) [])] 2%N []); (Variant "Array8"%string [(Field None 76%N (Some "[u8; 8]"%string) [])] 3%N []); (Variant "Array16"%string [(Field None 77%N (Some "[u8; 16]"%string) [])] 4%N []); (Variant "Array32"%string [(Field None 1%N (Some "[u8; 32]"%string) [])] 5%N []); (Variant "Blob"%string [(Field None 13%N (Some "Vec<u8>"%string) [])] 6%N [])]) []).
Definition md_t109 : ty := (Ty ["xcm"%string; "v3"%string; "multiasset"%string; "MultiAssets"%string] [] (TComposite [(Field None 110%N (Some "Vec<MultiAsset>"%string) [])]) []).
Definition md_t110 : ty := (Ty [] [] (TSequence 111%N) []).
Definition md_t111 : ty := (Ty ["xcm"%string; "v3"%string; "multiasset"%string; "MultiAsset"%string] [] (TComposite [(Field (Some "id"%string) 112%N (Some "AssetId"%string) []); (Field (Some "fun"%string) 113%N (Some "Fungibility"%string) [])]) []).
Definition md_t112 : ty := (Ty ["xcm"%string; "v3"%string; "multiasset"%string; "AssetId"%string] [] (TVariant [(Variant "Concrete"%string [(Field None 37%N (Some "MultiLocation"%string) [])] 0%N []); (Variant "Abstract"%string [(Field None 1%N (Some "[u8; 32]"%string) [])] 1%N [])]) []).
Definition md_t113 : ty := (Ty ["xcm"%string; "v3"%string; "multiasset"%string; "Fungibility"%string] [] (TVariant [(Variant "Fungible"%string [(Field None 44%N (Some "u128"%string) [])] 0%N []); (Variant "NonFungible"%string [(Field None 114%N (Some "AssetInstance"%string) [])] 1%N [])]) []).
Definition md_t114 : ty := (Ty ["xcm"%string; "v3"%string; "multiasset"%string; "AssetInstance"%string] [] (TVariant [(Variant "Undefined"%string [] 0%N []); (Variant "Index"%string [(Field None 44%N (Some "u128"%string) [])] 1%N []); (Variant "Array4"%string [(Field None 17%N (Some "[u8; 4]"%string) [])] 2%N []); (Variant "Array8"%string [(Field None 76%N (Some "[u8; 8]"%string) [])] 3%N []); (Variant "Array16"%string [(Field None 77%N (Some "[u8; 16]"%string) [])] 4%N []); (Variant "Array32"%string [(Field None 1%N (Some "[u8; 32]"%string) [])] 5%N [])]) []).
Definition md_t115 : ty := (Ty ["xcm"%string; "VersionedLocation"%string] [] (TVariant [(Variant "V2"%string [(Field None 100%N (Some "v2::MultiLocation"%string) [])] 1%N []); (Variant "V3"%string [(Field None 37%N (Some "v3::MultiLocation"%string) [])] 3%N []); (Variant "V4"%string [(Field None 54%N (Some "v4::Location"%string) [])] 4%N [])]) []).
Definition md_t116 : ty := (Ty ["cumulus_pallet_xcm"%string; "pallet"%string; "Event"%string] [("T"%string,None)] (TVariant [(Variant "InvalidFormat"%string [(Field None 1%N (Some "[u8; 32]"%string) [])] 0%N ["Downward message is invalid XCM."%string; "\[ id \]"%string]); (Variant "UnsupportedVersion"%string [(Field None 1%N (Some "[u8; 32]"%string) [])] 1%N ["Downward message is unsupported version of XCM."%string; "\[ id \]"%string]); (Variant "ExecutedDownward"%string [(Field None 1%N (Some "[u8; 32]"%string) []); (Field None 52%N (Some "Outcome"%string) [])] 2%N ["Downward message executed with the given outcome."%string; "\[ id, outcome \]"%string])]) ["The `Event` enum of this pallet"%string]).
Definition md_t117 : ty := (Ty ["cumulus_pallet_dmp_queue"%string; "pallet"%string; "Event"%string] [("T"%string,None)] (TVariant [(Variant "StartedExport"%string [] 0%N ["The export of pages started."%string]); (Variant "Exported"%string [(Field (Some "page"%string) 4%N (Some "PageCounter"%string) [])] 1%N ["The export of a page completed."%string]); (Variant "ExportFailed"%string [(Field (Some "page"%string) 4%N (Some "PageCounter"%string) [])] 2%N ["The export of a page failed."%string; ""%string; "This should never be emitted."%string]); (Variant "CompletedExport"%string [] 3%N ["The export of pages completed."%string]); (Variant "StartedOverweightExport"%string [] 4%N ["The export of overweight messages started."%string]); (Variant "ExportedOverweight"%string [(Field (Some "index"%string) 11%N (Some "OverweightIndex"%string) [])] 5%N ["The export of an overweight message completed."%string]); (Variant "ExportOverweightFailed"%string [(Field (Some "index"%string) 11%N (Some "OverweightIndex"%string) [])] 6%N ["The export of an overweight message failed."%string; ""%string; "This should never be emitted."%string]); (Variant "CompletedOverweightExport"%string [] 7%N ["The export of overweight messages completed."%string]); (Variant "StartedCleanup"%string [] 8%N ["The cleanup of remaining pallet storage started."%string]); (Variant "CleanedSome"%string [(Field (Some "keys_removed"%string) 4%N (Some "u32"%string) [])] 9%N ["Some debris was cleaned up."%string]); (Variant "Completed"%string [(Field (Some "error"%string) 30%N (Some "bool"%string) [])] 10%N ["The cleanup of remaining pallet storage completed."%string])]) ["The `Event` enum of this pallet"%string]).
Definition md_t118 : ty := (Ty ["pallet_message_queue"%string; "pallet"%string; "Event"%string] [("T"%string,None)] (TVariant [(Variant "ProcessingFailed"%string [(Field (Some "id"%string) 12%N (Some "H256"%string) ["The `blake2_256` hash of the message."%string]); (Field (Some "origin"%string) 119%N (Some "MessageOriginOf<T>"%string) ["The queue of the message."%string]); (Field (Some "error"%string) 121%N (Some "ProcessMessageError"%string) ["The error that occurred."%string; ""%string; "This error is pretty opaque. More fine-grained errors need to be emitted as events"%string; "by the `MessageProcessor`."%string])] 0%N ["Message discarded due to an error in the `MessageProcessor` (usually a format error)."%string]); (Variant "Processed"%string [(Field (Some "id"%string) 12%N (Some "H256"%string) ["The `blake2_256` hash of the message."%string]); (Field (Some "origin"%string) 119%N (Some "MessageOriginOf<T>"%string) ["The queue of the message."%string]); (Field (Some "weight_used"%string) 9%N (Some "Weight"%string) ["How much weight was used to process the message."%string]); (Field (Some "success"%string) 30%N (Some "bool"%string) ["Whether the message was processed."%string; ""%string; "Note that this does not mean that the underlying `MessageProcessor` was internally"%string; "successful. It *solely* means that the MQ pallet will treat this as a success"%string; "condition and discard the message. Any internal error needs to be emitted as events"%string; "by the `MessageProcessor`."%string])] 1%N ["Message is processed."%string]); (Variant "OverweightEnqueued"%string [(Field (Some "id"%string) 1%N (Some "[u8; 32]"%string) ["The `blake2_256` hash of the message."%string]); (Field (Some "origin"%string) 119%N (Some "MessageOriginOf<T>"%string) ["The queue of the message."%string]); (Field (Some "page_index"%string) 4%N (Some "PageIndex"%string) ["The page of the message."%string]); (Field (Some "message_index"%string) 4%N (Some "T::Size"%string) ["The index of the message within the page."%string])] 2%N ["Message placed in overweight queue."%string]); (Variant "PageReaped"%string [(Field (Some "origin"%string) 119%N (Some "MessageOriginOf<T>"%string) ["The queue of the page."%string]); (Field (Some "index"%string) 4%N (Some "PageIndex"%string) ["The index of the page."%string])] 3%N ["This page was reaped."%string])]) ["The `Event` enum of this pallet"%string]).
Definition md_t119 : ty := (Ty ["cumulus_primitives_core"%string; "AggregateMessageOrigin"%string] [] (TVariant [(Variant "Here"%string [] 0%N []); (Variant "Parent"%string [] 1%N []); (Variant "Sibling"%string [(Field None 120%N (Some "ParaId"%string) [])] 2%N [])]) []).
Definition md_t120 : ty := (Ty ["polkadot_parachain_primitives"%string; "primitives"%string; "Id"%string] [] (TComposite [(Field None 4%N (Some "u32"%string) [])]) []).
Definition md_t121 : ty := (Ty ["frame_support"%string; "traits"%string; "messages"%string; "ProcessMessageError"%string] [] (TVariant [(Variant "BadFormat"%string [] 0%N []); (Variant "Corrupt"%string [] 1%N []); (Variant "Unsupported"%string [] 2%N []); (Variant "Overweight"%string [(Field None 9%N (Some "Weight"%string) [])] 3%N []); (Variant "Yield"%string [] 4%N [])]) []).
Definition md_t122 : ty := (Ty ["pallet_utility"%string; "pallet"%string; "Event"%string] [] (TVariant [(Variant "BatchInterrupted"%string [(Field (Some "index"%string) 4%N (Some "u32"%string) []); (Field (Some "error"%string) 25%N (Some "DispatchError"%string) [])] 0%N ["Batch of dispatches did not complete fully. Index of first failing dispatch given, as"%string; "well as the error."%string]); (Variant "BatchCompleted"%string [] 1%N ["Batch of dispatches completed fully with no error."%string]); (Variant "BatchCompletedWithErrors"%string [] 2%N ["Batch of dispatches completed but has errors."%string]); (Variant "ItemCompleted"%string [] 3%N ["A single item within a Batch of dispatches has completed with no error."%string]); (Variant "ItemFailed"%string [(Field (Some "error"%string) 25%N (Some "DispatchError"%string) [])] 4%N ["A single item within a Batch of dispatches has completed with error."%string]); (Variant "DispatchedAs"%string [(Field (Some "result"%string) 123%N (Some "DispatchResult"%string) [])] 5%N ["A call was dispatched."%string])]) ["The `Event` enum of this pallet"%string]).
Definition md_t123 : ty := (Ty ["Result"%string] [("T"%string,(Some 124%N)); ("E"%string,(Some 25%N))] (TVariant [(Variant "Ok"%string [(Field None 124%N None [])] 0%N []); (Variant "Err"%string [(Field None 25%N None [])] 1%N [])]) []).
Definition md_t124 : ty := (Ty [] [] (TTuple []) []).
Definition md_t125 : ty := (Ty ["pallet_multisig"%string; "pallet"%string; "Event"%string] [("T"%string,None)] (TVariant [(Variant "NewMultisig"%string [(Field (Some "approving"%string) 0%N (Some "T::AccountId"%string) []); (Field (Some "multisig"%string) 0%N (Some "T::AccountId"%string) []); (Field (Some "call_hash"%string) 1%N (Some "CallHash"%string) [])] 0%N ["A new multisig operation has begun."%string]); (Variant "MultisigApproval"%string [(Field (Some "approving"%string) 0%N (Some "T::AccountId"%string) []); (Field (Some "timepoint"%string) 126%N (Some "Timepoint<BlockNumberFor<T>>"%string) []); (Field (Some "multisig"%string) 0%N (Some "T::AccountId"%string) []); (Field (Some "call_hash"%string) 1%N (Some "CallHash"%string) [])] 1%N ["A multisig operation has been approved by someone."%string]); (Variant "MultisigExecuted"%string [(Field (Some "approving"%string) 0%N (Some "T::AccountId"%string) []); (Field (Some "timepoint"%string) 126%N (Some "Timepoint<BlockNumberFor<T>>"%string) []); (Field (Some "multisig"%string) 0%N (Some "T::AccountId"%string) []); (Field (Some "call_hash"%string) 1%N (Some "CallHash"%string) []); (Field (Some "result"%string) 123%N (Some "DispatchResult"%string) [])] 2%N ["A multisig operation has been executed."%string]); (Variant "MultisigCancelled"%string [(Field (Some "cancelling"%string) 0%N (Some "T::AccountId"%string) []); (Field (Some "timepoint"%string) 126%N (Some "Timepoint<BlockNumberFor<T>>"%string) []); (Field (Some "multisig"%string) 0%N (Some "T::AccountId"%string) []); (Field (Some "call_hash"%string) 1%N (Some "CallHash"%string) [])] 3%N ["A multisig operation has been cancelled."%string])]) ["The `Event` enum of this pallet"%string]).
Definition md_t126 : ty := (Ty ["pallet_multisig"%string; "Timepoint"%string] [("BlockNumber"%string,(Some 4%N))] (TComposite [(Field (Some "height"%string) 4%N (Some "BlockNumber"%string) []); (Field (Some "index"%string) 4%N (Some "u32"%string) [])]) []).
Definition md_t127 : ty := (Ty ["pallet_proxy"%string; "pallet"%string; "Event"%string] [("T"%string,None)] (TVariant [(Variant "ProxyExecuted"%string [(Field (Some "result"%string) 123%N (Some "DispatchResult"%string) [])] 0%N ["A proxy was executed correctly, with the given."%string]); (Variant "PureCreated"%string [(Field (Some "pure"%string) 0%N (Some "T::AccountId"%string) []); (Field (Some "who"%string) 0%N (Some "T::AccountId"%string) []); (Field (Some "proxy_type"%string) 128%N (Some "T::ProxyType"%string) []); (Field (Some "disambiguation_index"%string) 129%N (Some "u16"%string) [])] 1%N ["A pure account has been created by new proxy with given"%string; "disambiguation index and proxy type."%string]); (Variant "Announced"%string [(Field (Some "real"%string) 0%N (Some "T::AccountId"%string) []); (Field (Some "proxy"%string) 0%N (Some "T::AccountId"%string) []); (Field (Some "call_hash"%string) 12%N (Some "CallHashOf<T>"%string) [])] 2%N ["An announcement was placed to make a call in the future."%string]); (Variant "ProxyAdded"%string [(Field (Some "delegator"%string) 0%N (Some "T::AccountId"%string) []); (Field (Some "delegatee"%string) 0%N (Some "T::AccountId"%string) []); (Field (Some "proxy_type"%string) 128%N (Some "T::ProxyType"%string) []); (Field (Some "delay"%string) 4%N (Some "BlockNumberFor<T>"%string) [])] 3%N ["A proxy was added."%string]); (Variant "ProxyRemoved"%string [(Field (Some "delegator"%string) 0%N (Some "T::AccountId"%string) []); (Field (Some "delegatee"%string) 0%N (Some "T::AccountId"%string) []); (Field (Some "proxy_type"%string) 128%N (Some "T::ProxyType"%string) []); (Field (Some "delay"%string) 4%N (Some "BlockNumberFor<T>"%string) [])] 4%N ["A proxy was removed."%string])]) ["The `Event` enum of this pallet"%string]).
Definition md_t128 : ty := (Ty ["asset_hub_polkadot_runtime"%string; "ProxyType"%string] [] (TVariant [(Variant "Any"%string [] 0%N []); (Variant "NonTransfer"%string [] 1%N []); (Variant "CancelProxy"%string [] 2%N []); (Variant "Assets"%string [] 3%N []); (Variant "AssetOwner"%string [] 4%N []); (Variant "AssetManager"%string [] 5%N []); (Variant "Collator"%string [] 6%N [])]) []).
Definition md_t129 : ty := (Ty [] [] (TPrimitive (PrU U16)) []).
Definition md_t130 : ty := (Ty ["pallet_assets"%string; "pallet"%string; "Event"%string] [("T"%string,None); ("I"%string,None)] (TVariant [(Variant "Created"%string [(Field (Some "asset_id"%string) 4%N (Some "T::AssetId"%string) []); (Field (Some "creator"%string) 0%N (Some "T::AccountId"%string) []); (Field (Some "owner"%string) 0%N (Some "T::AccountId"%string) [])] 0%N ["Some asset class was created."%string]); (Variant "Issued"%string [(Field (Some "asset_id"%string) 4%N (Some "T::AssetId"%string) []); (Field (Some "owner"%string) 0%N (Some "T::AccountId"%string) []); (Field (Some "amount"%string) 6%N (Some "T::Balance"%string) [])] 1%N ["Some assets were issued."%string]); (Variant "Transferred"%string [(Field (Some "asset_id"%string) 4%N (Some "T::AssetId"%string) []); (Field (Some "from"%string) 0%N (Some "T::AccountId"%string) []); (Field (Some "to"%string) 0%N (Some "T::AccountId"%string) []); (Field (Some "amount"%string) 6%N (Some "T::Balance"%string) [])] 2%N ["Some assets were transferred."%string]); (Variant "Burned"%string [(Field (Some "asset_id"%string) 4%N (Some "T::AssetId"%string) []); (Field (Some "owner"%string) 0%N (Some "T::AccountId"%string) []); (Field (Some "balance"%string) 6%N (Some "T::Balance"%string) [])] 3%N ["Some assets were destroyed."%string]); (Variant "TeamChanged"%string [(Field (Some "asset_id"%string) 4%N (Some "T::AssetId"%string) []); (Field (Some "issuer"%string) 0%N (Some "T::AccountId"%string) []); (Field (Some "admin"%string) 0%N (Some "T::AccountId"%string) []); (Field (Some "freezer"%string) 0%N (Some "T::AccountId"%string) [])] 4%N ["The management team changed."%string]); (Variant "OwnerChanged"%string [(Field (Some "asset_id"%string) 4%N (Some "T::AssetId"%string) []); (Field (Some "owner"%string) 0%N (Some "T::AccountId"%string) [])] 5%N ["The owner changed."%string]); (Variant "Frozen"%string [(Field (Some "asset_id"%string) 4%N (Some "T::AssetId"%string) []); (Field (Some "who"%string) 0%N (Some "T::AccountId"%string) [])] 6%N ["Some account `who` was frozen."%string]); (Variant "Thawed"%string [(Field (Some "asset_id"%string) 4%N (Some "T::AssetId"%string) []); (Field (Some "who"%string) 0%N (Some "T::AccountId"%string) [])] 7%N ["Some account `who` was thawed."%string]); (Variant "AssetFrozen"%string [(Field (Some "asset_id"%string) 4%N (Some "T::AssetId"%string) [])] 8%N ["Some asset `asset_id` was frozen."%string]); (Variant "AssetThawed"%string [(Field (Some "asset_id"%string) 4%N (Some "T::AssetId"%string) [])] 9%N ["Some asset `asset_id` was thawed."%string]); (Variant "AccountsDestroyed"%string [(Field (Some "asset_id"%string) 4%N (Some "T::AssetId"%string) []); (Field (Some "accounts_destroyed"%string) 4%N (Some "u32"%string) []); (Field (Some "accounts_remaining"%string) 4%N (Some "u32"%string) [])] 10%N ["Accounts were destroyed for given asset."%string]); (Variant "ApprovalsDestroyed"%string [(Field (Some "asset_id"%string) 4%N (Some "T::AssetId"%string) []); (Field (Some "approvals_destroyed"%string) 4%N (Some "u32"%string) []); (Field (Some "approvals_remaining"%string) 4%N (Some "u32"%string) [])] 11%N ["Approvals were destroyed for given asset."%string]); (Variant "DestructionStarted"%string [(Field (Some "asset_id"%string) 4%N (Some "T::AssetId"%string) [])] 12%N ["An asset class is in the process of being destroyed."%string]); (Variant "Destroyed"%string [(Field (Some "asset_id"%string) 4%N (Some "T::AssetId"%string) [])] 13%N ["An asset class was destroyed."%string]); (Variant "ForceCreated"%string [(Field (Some "asset_id"%string) 4%N (Some "T::AssetId"%string) []); (Field (Some "owner"%string) 0%N (Some "T::AccountId"%string) [])] 14%N ["Some asset class was force-created."%string]); (Variant "MetadataSet"%string [(Field (Some "asset_id"%string) 4%N (Some "T::AssetId"%string) []); (Field (Some "name"%string) 13%N (Some "Vec<u8>"%string) []); (Field (Some "symbol"%string) 13%N (Some "Vec<u8>"%string) []); (Field (Some "decimals"%string) 2%N (Some "u8"%string) []); (Field (Some "is_frozen"%string) 30%N (Some "bool"%string) [])] 15%N ["New metadata has been set for an asset."%string]); (Variant "MetadataCleared"%string [(Field (Some "asset_id"%string) 4%N (Some "T::AssetId"%string) [])] 16%N ["Metadata has been cleared for an asset."%string]); (Variant "ApprovedTransfer"%string [(Field (Some "asset_id"%string) 4%N (Some "T::AssetId"%string) []); (Field (Some "source"%string) 0%N (Some "T::AccountId"%string) []); (Field (Some "delegate"%string) 0%N (Some "T::AccountId"%string) []); (Field (Some "amount"%string) 6%N (Some "T::Balance"%string) [])] 17%N ["(Additional) funds have been approved for transfer to a destination account."%string]); (Variant "ApprovalCancelled"%string [(Field (Some "asset_id"%string) 4%N (Some "T::AssetId"%string) []); (Field (Some "owner"%string) 0%N (Some "T::AccountId"%string) []); (Field (Some "delegate"%string) 0%N (Some "T::AccountId"%string) [])] 18%N ["An approval for account `delegate` was cancelled by `owner`."%string]); (Variant "TransferredApproved"%string [(Field (Some "asset_id"%string) 4%N (Some "T::AssetId"%string) []); (Field (Some "owner"%string) 0%N (Some "T::AccountId"%string) []); (Field (Some "delegate"%string) 0%N (Some "T::AccountId"%string) []); (Field (Some "destination"%string) 0%N (Some "T::AccountId"%string) []); (Field (Some "amount"%string) 6%N (Some "T::Balance"%string) [])] 19%N ["An `amount` was transferred in its entirety from `owner` to `destination` by"%string; "the approved `delegate`."%string]); (Variant "AssetStatusChanged"%string [(Field (Some "asset_id"%string) 4%N (Some "T::AssetId"%string) [])] 20%N ["An asset has had its attributes changed by the `Force` origin."%string]); (Variant "AssetMinBalanceChanged"%string [(Field (Some "asset_id"%string) 4%N (Some "T::AssetId"%string) []); (Field (Some "new_min_balance"%string) 6%N (Some "T::Balance"%string) [])] 21%N ["The min_balance of an asset has been updated by the asset owner."%string]); (Variant "Touched"%string [(Field (Some "asset_id"%string) 4%N (Some "T::AssetId"%string) []); (Field (Some "who"%string) 0%N (Some "T::AccountId"%string) []); (Field (Some "depositor"%string) 0%N (Some "T::AccountId"%string) [])] 22%N ["Some account `who` was created with a deposit from `depositor`."%string]); (Variant "Blocked"%string [(Field (Some "asset_id"%string) 4%N (Some "T::AssetId"%string) []); (Field (Some "who"%string) 0%N (Some "T::AccountId"%string) [])] 23%N ["Some account `who` was blocked."%string])]) ["The `Event` enum of this pallet"%string]).
Definition md_t131 : ty := (Ty ["pallet_uniques"%string; "pallet"%string; "Event"%string] [("T"%string,None); ("I"%string,None)] (TVariant [(Variant "Created"%string [(Field (Some "collection"%string) 4%N (Some "T::CollectionId"%string) []); (Field (Some "creator"%string) 0%N (Some "T::AccountId"%string) []); (Field (Some "owner"%string) 0%N (Some "T::AccountId"%string) [])] 0%N ["A `collection` was created."%string]); (Variant "ForceCreated"%string [(Field (Some "collection"%string) 4%N (Some "T::CollectionId"%string) []); (Field (Some "owner"%string) 0%N (Some "T::AccountId"%string) [])] 1%N ["A `collection` was force-created."%string]); (Variant "Destroyed"%string [(Field (Some "collection"%string) 4%N (Some "T::CollectionId"%string) [])] 2%N ["A `collection` was destroyed."%string]); (Variant "Issued"%string [(Field (Some "collection"%string) 4%N (Some "T::CollectionId"%string) []); (Field (Some "item"%string) 4%N (Some "T::ItemId"%string) []); (Field (Some "owner"%string) 0%N (Some "T::AccountId"%string) [])] 3%N ["An `item` was issued."%string]); (Variant "Transferred"%string [(Field (Some "collection"%string) 4%N (Some "T::CollectionId"%string) []); (Field (Some "item"%string) 4%N (Some "T::ItemId"%string) []); (Field (Some "from"%string) 0%N (Some "T::AccountId"%string) []); (Field (Some "to"%string) 0%N (Some "T::AccountId"%string) [])] 4%N ["An `item` was transferred."%string]); (Variant "Burned"%string [(Field (Some "collection"%string) 4%N (Some "T::CollectionId"%string) []); (Field (Some "item"%string) 4%N (Some "T::ItemId"%string) []); (Field (Some "owner"%string) 0%N (Some "T::AccountId"%string) [])] 5%N ["An `item` was destroyed."%string]); (Variant "Frozen"%string [(Field (Some "collection"%string) 4%N (Some "T::CollectionId"%string) []); (Field (Some "item"%string) 4%N (Some "T::ItemId"%string) [])] 6%N ["Some `item` was frozen."%string]); (Variant "Thawed"%string [(Field (Some "collection"%string) 4%N (Some "T::CollectionId"%string) []); (Field (Some "item"%string) 4%N (Some "T::ItemId"%string) [])] 7%N ["Some `item` was thawed."%string]); (Variant "CollectionFrozen"%string [(Field (Some "collection"%string) 4%N (Some "T::CollectionId"%string) [])] 8%N ["Some `collection` was frozen."%string]); (Variant "CollectionThawed"%string [(Field (Some "collection"%string) 4%N (Some "T::CollectionId"%string) [])] 9%N ["Some `collection` was thawed."%string]); (Variant "OwnerChanged"%string [(Field (Some "collection"%string) 4%N (Some "T::CollectionId"%string) []); (Field (Some "new_owner"%string) 0%N (Some "T::AccountId"%string) [])] 10%N ["The owner changed."%string]); (Variant "TeamChanged"%string [(Field (Some "collection"%string) 4%N (Some "T::CollectionId"%string) []); (Field (Some "issuer"%string) 0%N (Some "T::AccountId"%string) []); (Field (Some "admin"%string) 0%N (Some "T::AccountId"%string) []); (Field (Some "freezer"%string) 0%N (Some "T::AccountId"%string) [])] 11%N ["The management team changed."%string]); (Variant "ApprovedTransfer"%string [(Field (Some "collection"%string) 4%N (Some "T::CollectionId"%string) []); (Field (Some "item"%string) 4%N (Some "T::ItemId"%string) []); (Field (Some "owner"%string) 0%N (Some "T::AccountId"%string) []); (Field (Some "delegate"%string) 0%N (Some "T::AccountId"%string) [])] 12%N ["An `item` of a `collection` has been approved by the `owner` for transfer by"%string; "a `delegate`."%string]); (Variant "ApprovalCancelled"%string [(Field (Some "collection"%string) 4%N (Some "T::CollectionId"%string) []); (Field (Some "item"%string) 4%N (Some "T::ItemId"%string) []); (Field (Some "owner"%string) 0%N (Some "T::AccountId"%string) []); (Field (Some "delegate"%string) 0%N (Some "T::AccountId"%string) [])] 13%N ["An approval for a `delegate` account to transfer the `item` of an item"%string; "`collection` was cancelled by its `owner`."%string]); (Variant "ItemStatusChanged"%string [(Field (Some "collection"%string) 4%N (Some "T::CollectionId"%string) [])] 14%N ["A `collection` has had its attributes changed by the `Force` origin."%string]); (Variant "CollectionMetadataSet"%string [(Field (Some "collection"%string) 4%N (Some "T::CollectionId"%string) []); (Field (Some "data"%string) 132%N (Some "BoundedVec<u8, T::StringLimit>"%string) []); (Field (Some "is_frozen"%string) 30%N (Some "bool"%string) [])] 15%N ["New metadata has been set for a `collection`."%string]); (Variant "CollectionMetadataCleared"%string [(Field (Some "collection"%string) 4%N (Some "T::CollectionId"%string) [])] 16%N ["Metadata has been cleared for a `collection`."%string]); (Variant "MetadataSet"%string [(Field (Some "collection"%string) 4%N (Some "T::CollectionId"%string) []); (Field (Some "item"%string) 4%N (Some "T::ItemId"%string) []); (Field (Some "data"%string) 132%N (Some "BoundedVec<u8, T::StringLimit>"%string) []); (Field (Some "is_frozen"%string) 30%N (Some "bool"%string) [])] 17%N ["New metadata has been set for an item."%string]); (Variant "MetadataCleared"%string [(Field (Some "collection"%string) 4%N (Some "T::CollectionId"%string) []); (Field (Some "item"%string) 4%N (Some "T::ItemId"%string) [])] 18%N ["Metadata has been cleared for an item."%string]); (Variant "Redeposited"%string [(Field (Some "collection"%string) 4%N (Some "T::CollectionId"%string) []); (Field (Some "successful_items"%string) 133%N (Some "Vec<T::ItemId>"%string) [])] 19%N ["Metadata has been cleared for an item."%string]); (Variant "AttributeSet"%string [(Field (Some "collection"%string) 4%N (Some "T::CollectionId"%string) []); (Field (Some "maybe_item"%string) 134%N (Some "Option<T::ItemId>"%string) []); (Field (Some "key"%string) 135%N (Some "BoundedVec<u8, T::KeyLimit>"%string) []); (Field (Some "value"%string) 136%N (Some "BoundedVec<u8, T::ValueLimit>"%string) [])] 20%N ["New attribute metadata has been set for a `collection` or `item`."%string]); (Variant "AttributeCleared"%string [(Field (Some "collection"%string) 4%N (Some "T::CollectionId"%string) []); (Field (Some "maybe_item"%string) 134%N (Some "Option<T::ItemId>"%string) []); (Field (Some "key"%string) 135%N (Some "BoundedVec<u8, T::KeyLimit>"%string) [])] 21%N ["Attribute metadata has been cleared for a `collection` or `item`."%string]); (Variant "OwnershipAcceptanceChanged"%string [(Field (Some "who"%string) 0%N (Some "T::AccountId"%string) []); (Field (Some "maybe_collection"%string) 134%N (Some "Option<T::CollectionId>"%string) [])] 22%N ["Ownership acceptance has changed for an account."%string]); (Variant "CollectionMaxSupplySet"%string [(Field (Some "collection"%string) 4%N (Some "T::CollectionId"%string) []); (Field (Some "max_supply"%string) 4%N (Some "u32"%string) [])] 23%N ["Max supply has been set for a collection."%string]); (Variant "ItemPriceSet"%string [(Field (Some "collection"%string) 4%N (Some "T::CollectionId"%string) []); (Field (Some "item"%string) 4%N (Some "T::ItemId"%string) []); (Field (Some "price"%string) 6%N (Some "ItemPrice<T, I>"%string) []); (Field (Some "whitelisted_buyer"%string) 137%N (Some "Option<T::AccountId>"%string) [])] 24%N ["The price was set for the instance."%string]); (Variant "ItemPriceRemoved"%string [(Field (Some "collection"%string) 4%N (Some "T::CollectionId"%string) []); (Field (Some "item"%string) 4%N (Some "T::ItemId"%string) [])] 25%N ["The price for the instance was removed."%string]); (Variant "ItemBought"%string [(Field (Some "collection"%string) 4%N (Some "T::CollectionId"%string) []); (Field (Some "item"%string) 4%N (Some "T::ItemId"%string) []); (Field (Some "price"%string) 6%N (Some "ItemPrice<T, I>"%string) []); (Field (Some "seller"%string) 0%N (Some "T::AccountId"%string) []); (Field (Some "buyer"%string) 0%N (Some "T::AccountId"%string) [])] 26%N ["An item was bought."%string])]) ["The `Event` enum of this pallet"%string]).
Definition md_t132 : ty := (Ty ["bounded_collections"%string; "bounded_vec"%string; "BoundedVec"%string] [("T"%string,(Some 2%N)); ("S"%string,None)] (TComposite [(Field None 13%N (Some "Vec<T>"%string) [])]) []).
Definition md_t133 : ty := (Ty [] [] (TSequence 4%N) []).
Definition md_t134 : ty := (Ty ["Option"%string] [("T"%string,(Some 4%N))] (TVariant [(Variant "None"%string [] 0%N []); (Variant "Some"%string [(Field None 4%N None [])] 1%N [])]) []).
Definition md_t135 : ty := (Ty ["bounded_collections"%string; "bounded_vec"%string; "BoundedVec"%string] [("T"%string,(Some 2%N)); ("S"%string,None)] (TComposite [(Field None 13%N (Some "Vec<T>"%string) [])]) []).
Definition md_t136 : ty := (Ty ["bounded_collections"%string; "bounded_vec"%string; "BoundedVec"%string] [("T"%string,(Some 2%N)); ("S"%string,None)] (TComposite [(Field None 13%N (Some "Vec<T>"%string) [])]) []).
Definition md_t137 : ty := (Ty ["Option"%string] [("T"%string,(Some 0%N))] (TVariant [(Variant "None"%string [] 0%N []); (Variant "Some"%string [(Field None 0%N None [])] 1%N [])]) []).
Definition md_t138 : ty := (Ty ["pallet_nfts"%string; "pallet"%string; "Event"%string] [("T"%string,None); ("I"%string,None)] (TVariant [(Variant "Created"%string [(Field (Some "collection"%string) 4%N (Some "T::CollectionId"%string) []); (Field (Some "creator"%string) 0%N (Some "T::AccountId"%string) []); (Field (Some "owner"%string) 0%N (Some "T::AccountId"%string) [])] 0%N ["A `collection` was created."%string]); (Variant "ForceCreated"%string [(Field (Some "collection"%string) 4%N (Some "T::CollectionId"%string) []); (Field (Some "owner"%string) 0%N (Some "T::AccountId"%string) [])] 1%N ["A `collection` was force-created."%string]); (Variant "Destroyed"%string [(Field (Some "collection"%string) 4%N (Some "T::CollectionId"%string) [])] 2%N ["A `collection` was destroyed."%string]); (Variant "Issued"%string [(Field (Some "collection"%string) 4%N (Some "T::CollectionId"%string) []); (Field (Some "item"%string) 4%N (Some "T::ItemId"%string) []); (Field (Some "owner"%string) 0%N (Some "T::AccountId"%string) [])] 3%N ["An `item` was issued."%string]); (Variant "Transferred"%string [(Field (Some "collection"%string) 4%N (Some "T::CollectionId"%string) []); (Field (Some "item"%string) 4%N (Some "T::ItemId"%string) []); (Field (Some "from"%string) 0%N (Some "T::AccountId"%string) []); (Field (Some "to"%string) 0%N (Some "T::AccountId"%string) [])] 4%N ["An `item` was transferred."%string]); (Variant "Burned"%string [(Field (Some "collection"%string) 4%N (Some "T::CollectionId"%string) []); (Field (Some "item"%string) 4%N (Some "T::ItemId"%string) []); (Field (Some "owner"%string) 0%N (Some "T::AccountId"%string) [])] 5%N ["An `item` was destroyed."%string]); (Variant "ItemTransferLocked"%string [(Field (Some "collection"%string) 4%N (Some "T::CollectionId"%string) []); (Field (Some "item"%string) 4%N (Some "T::ItemId"%string) [])] 6%N ["An `item` became non-transferable."%string]); (Variant "ItemTransferUnlocked"%string [(Field (Some "collection"%string) 4%N (Some "T::CollectionId"%string) []); (Field (Some "item"%string) 4%N (Some "T::ItemId"%string) [])] 7%N ["An `item` became transferable."%string]); (Variant "ItemPropertiesLocked"%string [(Field (Some "collection"%string) 4%N (Some "T::CollectionId"%string) []); (Field (Some "item"%string) 4%N (Some "T::ItemId"%string) []); (Field (Some "lock_metadata"%string) 30%N (Some "bool"%string) []); (Field (Some "lock_attributes"%string) 30%N (Some "bool"%string) [])] 8%N ["`item` metadata or attributes were locked."%string]); (Variant "CollectionLocked"%string [(Field (Some "collection"%string) 4%N (Some "T::CollectionId"%string) [])] 9%N ["Some `collection` was locked."%string]); (Variant "OwnerChanged"%string [(Field (Some "collection"%string) 4%N (Some "T::CollectionId"%string) []); (Field (Some "new_owner"%string) 0%N (Some "T::AccountId"%string) [])] 10%N ["The owner changed."%string]); (Variant "TeamChanged"%string [(Field (Some "collection"%string) 4%N (Some "T::CollectionId"%string) []); (Field (Some "issuer"%string) 137%N (Some "Option<T::AccountId>"%string) []); (Field (Some "admin"%string) 137%N (Some "Option<T::AccountId>"%string) []); (Field (Some "freezer"%string) 137%N (Some "Option<T::AccountId>"%string) [])] 11%N ["The management team changed."%string]); (Variant "TransferApproved"%string [(Field (Some "collection"%string) 4%N (Some "T::CollectionId"%string) []); (Field (Some "item"%string) 4%N (Some "T::ItemId"%string) []); (Field (Some "owner"%string) 0%N (Some "T::AccountId"%string) []); (Field (Some "delegate"%string) 0%N (Some "T::AccountId"%string) []); (Field (Some "deadline"%string) 134%N (Some "Option<BlockNumberFor<T>>"%string) [])] 12%N ["An `item` of a `collection` has been approved by the `owner` for transfer by"%string; "a `delegate`."%string]); (Variant "ApprovalCancelled"%string [(Field (Some "collection"%string) 4%N (Some "T::CollectionId"%string) []); (Field (Some "item"%string) 4%N (Some "T::ItemId"%string) []); (Field (Some "owner"%string) 0%N (Some "T::AccountId"%string) []); (Field (Some "delegate"%string) 0%N (Some "T::AccountId"%string) [])] 13%N ["An approval for a `delegate` account to transfer the `item` of an item"%string; "`collection` was cancelled by its `owner`."%string]); (Variant "AllApprovalsCancelled"%string [(Field (Some "collection"%string) 4%N (Some "T::CollectionId"%string) []); (Field (Some "item"%string) 4%N (Some "T::ItemId"%string) []); (Field (Some "owner"%string) 0%N (Some "T::AccountId"%string) [])] 14%N ["All approvals of an item got cancelled."%string]); (Variant "CollectionConfigChanged"%string [(Field (Some "collection"%string) 4%N (Some "T::CollectionId"%string) [])] 15%N ["A `collection` has had its config changed by the `Force` origin."%string]); (Variant "CollectionMetadataSet"%string [(Field (Some "collection"%string) 4%N (Some "T::CollectionId"%string) []); (Field (Some "data"%string) 139%N (Some "BoundedVec<u8, T::StringLimit>"%string) [])] 16%N ["New metadata has been set for a `collection`."%string]); (Variant "CollectionMetadataCleared"%string [(Field (Some "collection"%string) 4%N (Some "T::CollectionId"%string) [])] 17%N ["Metadata has been cleared for a `collection`."%string]); (Variant "ItemMetadataSet"%string [(Field (Some "collection"%string) 4%N (Some "T::CollectionId"%string) []); (Field (Some "item"%string) 4%N (Some "T::ItemId"%string) []); (Field (Some "data"%string) 139%N (Some "BoundedVec<u8, T::StringLimit>"%string) [])] 18%N ["New metadata has been set for an item."%string]); (Variant "ItemMetadataCleared"%string [(Field (Some "collection"%string) 4%N (Some "T::CollectionId"%string) []); (Field (Some "item"%string) 4%N (Some "T::ItemId"%string) [])] 19%N ["Metadata has been cleared for an item."%string]); (Variant "Redeposited"%string [(Field (Some "collection"%string) 4%N (Some "T::CollectionId"%string) []); (Field (Some "successful_items"%string) 133%N (Some "Vec<T::ItemId>"%string) [])] 20%N ["The deposit for a set of `item`s within a `collection` has been updated."%string]); (Variant "AttributeSet"%string [(Field (Some "collection"%string) 4%N (Some "T::CollectionId"%string) []); (Field (Some "maybe_item"%string) 134%N (Some "Option<T::ItemId>"%string) []); (Field (Some "key"%string) 136%N (Some "BoundedVec<u8, T::KeyLimit>"%string) []); (Field (Some "value"%string) 139%N (Some "BoundedVec<u8, T::ValueLimit>"%string) []); (Field (Some "namespace"%string) 140%N (Some "AttributeNamespace<T::AccountId>"%string) [])] 21%N ["New attribute metadata has been set for a `collection` or `item`."%string]); (Variant "AttributeCleared"%string [(Field (Some "collection"%string) 4%N (Some "T::CollectionId"%string) []); (Field (Some "maybe_item"%string) 134%N (Some "Option<T::ItemId>"%string) []); (Field (Some "key"%string) 136%N (Some "BoundedVec<u8, T::KeyLimit>"%string) []); (Field (Some "namespace"%string) 140%N (Some "AttributeNamespace<T::AccountId>"%string) [])] 22%N ["Attribute metadata has been cleared for a `collection` or `item`."%string]); (Variant "ItemAttributesApprovalAdded"%string [(Field (Some "collection"%string) 4%N (Some "T::CollectionId"%string) []); (Field (Some "item"%string) 4%N (Some "T::ItemId"%string) []); (Field (Some "delegate"%string) 0%N (Some "T::AccountId"%string) [])] 23%N ["A new approval to modify item attributes was added."%string]); (Variant "ItemAttributesApprovalRemoved"%string [(Field (Some "collection"%string) 4%N (Some "T::CollectionId"%string) []); (Field (Some "item"%string) 4%N (Some "T::ItemId"%string) []); (Field (Some "delegate"%string) 0%N (Some "T::AccountId"%string) [])] 24%N ["A new approval to modify item attributes was removed."%string]); (Variant "OwnershipAcceptanceChanged"%string [(Field (Some "who"%string) 0%N (Some "T::AccountId"%string) []); (Field (Some "maybe_collection"%string) 134%N (Some "Option<T::CollectionId>"%string) [])] 25%N ["Ownership acceptance has changed for an account."%string]); (Variant "CollectionMaxSupplySet"%string [(Field (Some "collection"%string) 4%N (Some "T::CollectionId"%string) []); (Field (Some "max_supply"%string) 4%N (Some "u32"%string) [])] 26%N ["Max supply has been set for a collection."%string]); (Variant "CollectionMintSettingsUpdated"%string [(Field (Some "collection"%string) 4%N (Some "T::CollectionId"%string) [])] 27%N ["Mint settings for a collection had changed."%string]); (Variant "NextCollectionIdIncremented"%string [(Field (Some "next_id"%string) 134%N (Some "Option<T::CollectionId>"%string) [])] 28%N ["Event gets emitted when the `NextCollectionId` gets incremented."%string]); (Variant "ItemPriceSet"%string [(Field (Some "collection"%string) 4%N (Some "T::CollectionId"%string) []); (Field (Some "item"%string) 4%N (Some "T::ItemId"%string) []); (Field (Some "price"%string) 6%N (Some "ItemPrice<T, I>"%string) []); (Field (Some "whitelisted_buyer"%string) 137%N (Some "Option<T::AccountId>"%string) [])] 29%N ["The price was set for the item."%string]); (Variant "ItemPriceRemoved"%string [(Field (Some "collection"%string) 4%N (Some "T::CollectionId"%string) []); (Field (Some "item"%string) 4%N (Some "T::ItemId"%string) [])] 30%N ["The price for the item was removed."%string]); (Variant "ItemBought"%string [(Field (Some "collection"%string) 4%N (Some "T::CollectionId"%string) []); (Field (Some "item"%string) 4%N (Some "T::ItemId"%string) []); (Field (Some "price"%string) 6%N (Some "ItemPrice<T, I>"%string) []); (Field (Some "seller"%string) 0%N (Some "T::AccountId"%string) []); (Field (Some "buyer"%string) 0%N (Some "T::AccountId"%string) [])] 31%N ["An item was bought."%string]); (Variant "TipSent"%string [(Field (Some "collection"%string) 4%N (Some "T::CollectionId"%string) []); (Field (Some "item"%string) 4%N (Some "T::ItemId"%string) []); (Field (Some "sender"%string) 0%N (Some "T::AccountId"%string) []); (Field (Some "receiver"%string) 0%N (Some "T::AccountId"%string) []); (Field (Some "amount"%string) 6%N (Some "DepositBalanceOf<T, I>"%string) [])] 32%N ["A tip was sent."%string]); (Variant "SwapCreated"%string [(Field (Some "offered_collection"%string) 4%N (Some "T::CollectionId"%string) []); (Field (Some "offered_item"%string) 4%N (Some "T::ItemId"%string) []); (Field (Some "desired_collection"%string) 4%N (Some "T::CollectionId"%string) []); (Field (Some "desired_item"%string) 134%N (Some "Option<T::ItemId>"%string) []); (Field (Some "price"%string) 141%N (Some "Option<PriceWithDirection<ItemPrice<T, I>>>"%string) []); (Field (Some "deadline"%string) 4%N (Some "BlockNumberFor<T>"%string) [])] 33%N ["An `item` swap intent was created."%string]); (Variant "SwapCancelled"%string [(Field (Some "offered_collection"%string) 4%N (Some "T::CollectionId"%string) []); (Field (Some "offered_item"%string) 4%N (Some "T::ItemId"%string) []); (Field (Some "desired_collection"%string) 4%N (Some "T::CollectionId"%string) []); (Field (Some "desired_item"%string) 134%N (Some "Option<T::ItemId>"%string) []); (Field (Some "price"%string) 141%N (Some "Option<PriceWithDirection<ItemPrice<T, I>>>"%string) []); (Field (Some "deadline"%string) 4%N (Some "BlockNumberFor<T>"%string) [])] 34%N ["The swap was cancelled."%string]); (Variant "SwapClaimed"%string [(Field (Some "sent_collection"%string) 4%N (Some "T::CollectionId"%string) []); (Field (Some "sent_item"%string) 4%N (Some "T::ItemId"%string) []); (Field (Some "sent_item_owner"%string) 0%N (Some "T::AccountId"%string) []); (Field (Some "received_collection"%string) 4%N (Some "T::CollectionId"%string) []); (Field (Some "received_item"%string) 4%N (Some "T::ItemId"%string) []); (Field (Some "received_item_owner"%string) 0%N (Some "T::AccountId"%string) []); (Field (Some "price"%string) 141%N (Some "Option<PriceWithDirection<ItemPrice<T, I>>>"%string) []); (Field (Some "deadline"%string) 4%N (Some "BlockNumberFor<T>"%string) [])] 35%N ["The swap has been claimed."%string]); (Variant "PreSignedAttributesSet"%string [(Field (Some "collection"%string) 4%N (Some "T::CollectionId"%string) []); (Field (Some "item"%string) 4%N (Some "T::ItemId"%string) []); (Field (Some "namespace"%string) 140%N (Some "AttributeNamespace<T::AccountId>"%string) [])] 36%N ["New attributes have been set for an `item` of the `collection`."%string]); (Variant "PalletAttributeSet"%string [(Field (Some "collection"%string) 4%N (Some "T::CollectionId"%string) []); (Field (Some "item"%string) 134%N (Some "Option<T::ItemId>"%string) []); (Field (Some "attribute"%string) 144%N (Some "PalletAttributes<T::CollectionId>"%string) []); (Field (Some "value"%string) 139%N (Some "BoundedVec<u8, T::ValueLimit>"%string) [])] 37%N ["A new attribute in the `Pallet` namespace was set for the `collection` or an `item`"%string; "within that `collection`."%string])]) ["The `Event` enum of this pallet"%string]).
Definition md_t139 : ty := (Ty ["bounded_collections"%string; "bounded_vec"%string; "BoundedVec"%string] [("T"%string,(Some 2%N)); ("S"%string,None)] (TComposite [(Field None 13%N (Some "Vec<T>"%string) [])]) []).
Definition md_t140 : ty := (Ty ["pallet_nfts"%string; "types"%string; "AttributeNamespace"%string] [("AccountId"%string,(Some 0%N))] (TVariant [(Variant "Pallet"%string [] 0%N []); (Variant "CollectionOwner"%string [] 1%N []); (Variant "ItemOwner"%string [] 2%N []); (Variant "Account"%string [(Field None 0%N (Some "AccountId"%string) [])] 3%N [])]) []).
Definition md_t141 : ty := (Ty ["Option"%string] [("T"%string,(Some 142%N))] (TVariant [(Variant "None"%string [] 0%N []); (Variant "Some"%string [(Field None 142%N None [])] 1%N [])]) []).
Definition md_t142 : ty := (Ty ["pallet_nfts"%string; "types"%string; "PriceWithDirection"%string] [("Amount"%string,(Some 6%N))] (TComposite [(Field (Some "amount"%string) 6%N (Some "Amount"%string) []); (Field (Some "direction"%string) 143%N (Some "PriceDirection"%string) [])]) []).
Definition md_t143 : ty := (Ty ["pallet_nfts"%string; "types"%string; "PriceDirection"%string] [] (TVariant [(Variant "Send"%string [] 0%N []); (Variant "Receive"%string [] 1%N [])]) []).
Definition md_t144 : ty := (Ty ["pallet_nfts"%string; "types"%string; "PalletAttributes"%string] [("CollectionId"%string,(Some 4%N))] (TVariant [(Variant "UsedToClaim"%string [(Field None 4%N (Some "CollectionId"%string) [])] 0%N []); (Variant "TransferDisabled"%string [] 1%N [])]) []).
Definition md_t145 : ty := (Ty ["pallet_assets"%string; "pallet"%string; "Event"%string] [("T"%string,None); ("I"%string,None)] (TVariant [(Variant "Created"%string [(Field (Some "asset_id"%string) 37%N (Some "T::AssetId"%string) []); (Field (Some "creator"%string) 0%N (Some "T::AccountId"%string) []); (Field (Some "owner"%string) 0%N (Some "T::AccountId"%string) [])] 0%N ["Some asset class was created."%string]); (Variant "Issued"%string [(Field (Some "asset_id"%string) 37%N (Some "T::AssetId"%string) []); (Field (Some "owner"%string) 0%N (Some "T::AccountId"%string) []); (Field (Some "amount"%string) 6%N (Some "T::Balance"%string) [])] 1%N ["Some assets were issued."%string]); (Variant "Transferred"%string [(Field (Some "asset_id"%string) 37%N (Some "T::AssetId"%string) []); (Field (Some "from"%string) 0%N (Some "T::AccountId"%string) []); (Field (Some "to"%string) 0%N (Some "T::AccountId"%string) []); (Field (Some "amount"%string) 6%N (Some "T::Balance"%string) [])] 2%N ["Some assets were transferred."%string]); (Variant "Burned"%string [(Field (Some "asset_id"%string) 37%N (Some "T::AssetId"%string) []); (Field (Some "owner"%string) 0%N (Some "T::AccountId"%string) []); (Field (Some "balance"%string) 6%N (Some "T::Balance"%string) [])] 3%N ["Some assets were destroyed."%string]); (Variant "TeamChanged"%string [(Field (Some "asset_id"%string) 37%N (Some "T::AssetId"%string) []); (Field (Some "issuer"%string) 0%N (Some "T::AccountId"%string) []); (Field (Some "admin"%string) 0%N (Some "T::AccountId"%string) []); (Field (Some "freezer"%string) 0%N (Some "T::AccountId"%string) [])] 4%N ["The management team changed."%string]); (Variant "OwnerChanged"%string [(Field (Some "asset_id"%string) 37%N (Some "T::AssetId"%string) []); (Field (Some "owner"%string) 0%N (Some "T::AccountId"%string) [])] 5%N ["The owner changed."%string]); (Variant "Frozen"%string [(Field (Some "asset_id"%string) 37%N (Some "T::AssetId"%string) []); (Field (Some "who"%string) 0%N (Some "T::AccountId"%string) [])] 6%N ["Some account `who` was frozen."%string]); (Variant "Thawed"%string [(Field (Some "asset_id"%string) 37%N (Some "T::AssetId"%string) []); (Field (Some "who"%string) 0%N (Some "T::AccountId"%string) [])] 7%N ["Some account `who` was thawed."%string]); (Variant "AssetFrozen"%string [(Field (Some "asset_id"%string) 37%N (Some "T::AssetId"%string) [])] 8%N ["Some asset `asset_id` was frozen."%string]); (Variant "AssetThawed"%string [(Field (Some "asset_id"%string) 37%N (Some "T::AssetId"%string) [])] 9%N ["Some asset `asset_id` was thawed."%string]); (Variant "AccountsDestroyed"%string [(Field (Some "asset_id"%string) 37%N (Some "T::AssetId"%string) []); (Field (Some "accounts_destroyed"%string) 4%N (Some "u32"%string) []); (Field (Some "accounts_remaining"%string) 4%N (Some "u32"%string) [])] 10%N ["Accounts were destroyed for given asset."%string]); (Variant "ApprovalsDestroyed"%string [(Field (Some "asset_id"%string) 37%N (Some "T::AssetId"%string) []); (Field (Some "approvals_destroyed"%string) 4%N (Some "u32"%string) []); (Field (Some "approvals_remaining"%string) 4%N (Some "u32"%string) [])] 11%N ["Approvals were destroyed for given asset."%string]); (Variant "DestructionStarted"%string [(Field (Some "asset_id"%string) 37%N (Some "T::AssetId"%string) [])] 12%N ["An asset class is in the process of being destroyed."%string]); (Variant "Destroyed"%string [(Field (Some "asset_id"%string) 37%N (Some "T::AssetId"%string) [])] 13%N ["An asset class was destroyed."%string]); (Variant "ForceCreated"%string [(Field (Some "asset_id"%string) 37%N (Some "T::AssetId"%string) []); (Field (Some "owner"%string) 0%N (Some "T::AccountId"%string) [])] 14%N ["Some asset class was force-created."%string]); (Variant "MetadataSet"%string [(Field (Some "asset_id"%string) 37%N (Some "T::AssetId"%string) []); (Field (Some "name"%string) 13%N (Some "Vec<u8>"%string) []); (Field (Some "symbol"%string) 13%N (Some "Vec<u8>"%string) []); (Field (Some "decimals"%string) 2%N (Some "u8"%string) []); (Field (Some "is_frozen"%string) 30%N (Some "bool"%string) [])] 15%N ["New metadata has been set for an asset."%string]); (Variant "MetadataCleared"%string [(Field (Some "asset_id"%string) 37%N (Some "T::AssetId"%string) [])] 16%N ["Metadata has been cleared for an asset."%string]); (Variant "ApprovedTransfer"%string [(Field (Some "asset_id"%string) 37%N (Some "T::AssetId"%string) []); (Field (Some "source"%string) 0%N (Some "T::AccountId"%string) []); (Field (Some "delegate"%string) 0%N (Some "T::AccountId"%string) []); (Field (Some "amount"%string) 6%N (Some "T::Balance"%string) [])] 17%N ["(Additional) funds have been approved for transfer to a destination account."%string]); (Variant "ApprovalCancelled"%string [(Field (Some "asset_id"%string) 37%N (Some "T::AssetId"%string) []); (Field (Some "owner"%string) 0%N (Some "T::AccountId"%string) []); (Field (Some "delegate"%string) 0%N (Some "T::AccountId"%string) [])] 18%N ["An approval for account `delegate` was cancelled by `owner`."%string]); (Variant "TransferredApproved"%string [(Field (Some "asset_id"%string) 37%N (Some "T::AssetId"%string) []); (Field (Some "owner"%string) 0%N (Some "T::AccountId"%string) []); (Field (Some "delegate"%string) 0%N (Some "T::AccountId"%string) []); (Field (Some "destination"%string) 0%N (Some "T::AccountId"%string) []); (Field (Some "amount"%string) 6%N (Some "T::Balance"%string) [])] 19%N ["An `amount` was transferred in its entirety from `owner` to `destination` by"%string; "the approved `delegate`."%string]); (Variant "AssetStatusChanged"%string [(Field (Some "asset_id"%string) 37%N (Some "T::AssetId"%string) [])] 20%N ["An asset has had its attributes changed by the `Force` origin."%string]); (Variant "AssetMinBalanceChanged"%string [(Field (Some "asset_id"%string) 37%N (Some "T::AssetId"%string) []); (Field (Some "new_min_balance"%string) 6%N (Some "T::Balance"%string) [])] 21%N ["The min_balance of an asset has been updated by the asset owner."%string]); (Variant "Touched"%string [(Field (Some "asset_id"%string) 37%N (Some "T::AssetId"%string) []); (Field (Some "who"%string) 0%N (Some "T::AccountId"%string) []); (Field (Some "depositor"%string) 0%N (Some "T::AccountId"%string) [])] 22%N ["Some account `who` was created with a deposit from `depositor`."%string]); (Variant "Blocked"%string [(Field (Some "asset_id"%string) 37%N (Some "T::AssetId"%string) []); (Field (Some "who"%string) 0%N (Some "T::AccountId"%string) [])] 23%N ["Some account `who` was blocked."%string])]) ["The `Event` enum of this pallet"%string]).
Definition md_t146 : ty := (Ty ["pallet_assets"%string; "pallet"%string; "Event"%string] [("T"%string,None); ("I"%string,None)] (TVariant [(Variant "Created"%string [(Field (Some "asset_id"%string) 4%N (Some "T::AssetId"%string) []); (Field (Some "creator"%string) 0%N (Some "T::AccountId"%string) []); (Field (Some "owner"%string) 0%N (Some "T::AccountId"%string) [])] 0%N ["Some asset class was created."%string]); (Variant "Issued"%string [(Field (Some "asset_id"%string) 4%N (Some "T::AssetId"%string) []); (Field (Some "owner"%string) 0%N (Some "T::AccountId"%string) []); (Field (Some "amount"%string) 6%N (Some "T::Balance"%string) [])] 1%N ["Some assets were issued."%string]); (Variant "Transferred"%string [(Field (Some "asset_id"%string) 4%N (Some "T::AssetId"%string) []); (Field (Some "from"%string) 0%N (Some "T::AccountId"%string) []); (Field (Some "to"%string) 0%N (Some "T::AccountId"%string) []); (Field (Some "amount"%string) 6%N (Some "T::Balance"%string) [])] 2%N ["Some assets were transferred."%string]); (Variant "Burned"%string [(Field (Some "asset_id"%string) 4%N (Some "T::AssetId"%string) []); (Field (Some "owner"%string) 0%N (Some "T::AccountId"%string) []); (Field (Some "balance"%string) 6%N (Some "T::Balance"%string) [])] 3%N ["Some assets were destroyed."%string]); (Variant "TeamChanged"%string [(Field (Some "asset_id"%string) 4%N (Some "T::AssetId"%string) []); (Field (Some "issuer"%string) 0%N (Some "T::AccountId"%string) []); (Field (Some "admin"%string) 0%N (Some "T::AccountId"%string) []); (Field (Some "freezer"%string) 0%N (Some "T::AccountId"%string) [])] 4%N ["The management team changed."%string]); (Variant "OwnerChanged"%string [(Field (Some "asset_id"%string) 4%N (Some "T::AssetId"%string) []); (Field (Some "owner"%string) 0%N (Some "T::AccountId"%string) [])] 5%N ["The owner changed."%string]); (Variant "Frozen"%string [(Field (Some "asset_id"%string) 4%N (Some "T::AssetId"%string) []); (Field (Some "who"%string) 0%N (Some "T::AccountId"%string) [])] 6%N ["Some account `who` was frozen."%string]); (Variant "Thawed"%string [(Field (Some "asset_id"%string) 4%N (Some "T::AssetId"%string) []); (Field (Some "who"%string) 0%N (Some "T::AccountId"%string) [])] 7%N ["Some account `who` was thawed."%string]); (Variant "AssetFrozen"%string [(Field (Some "asset_id"%string) 4%N (Some "T::AssetId"%string) [])] 8%N ["Some asset `asset_id` was frozen."%string]); (Variant "AssetThawed"%string [(Field (Some "asset_id"%string) 4%N (Some "T::AssetId"%string) [])] 9%N ["Some asset `asset_id` was thawed."%string]); (Variant "AccountsDestroyed"%string [(Field (Some "asset_id"%string) 4%N (Some "T::AssetId"%string) []); (Field (Some "accounts_destroyed"%string) 4%N (Some "u32"%string) []); (Field (Some "accounts_remaining"%string) 4%N (Some "u32"%string) [])] 10%N ["Accounts were destroyed for given asset."%string]); (Variant "ApprovalsDestroyed"%string [(Field (Some "asset_id"%string) 4%N (Some "T::AssetId"%string) []); (Field (Some "approvals_destroyed"%string) 4%N (Some "u32"%string) []); (Field (Some "approvals_remaining"%string) 4%N (Some "u32"%string) [])] 11%N ["Approvals were destroyed for given asset."%string]); (Variant "DestructionStarted"%string [(Field (Some "asset_id"%string) 4%N (Some "T::AssetId"%string) [])] 12%N ["An asset class is in the process of being destroyed."%string]); (Variant "Destroyed"%string [(Field (Some "asset_id"%string) 4%N (Some "T::AssetId"%string) [])] 13%N ["An asset class was destroyed."%string]); (Variant "ForceCreated"%string [(Field (Some "asset_id"%string) 4%N (Some "T::AssetId"%string) []); (Field (Some "owner"%string) 0%N (Some "T::AccountId"%string) [])] 14%N ["Some asset class was force-created."%string]); (Variant "MetadataSet"%string [(Field (Some "asset_id"%string) 4%N (Some "T::AssetId"%string) []); (Field (Some "name"%string) 13%N (Some "Vec<u8>"%string) []); (Field (Some "symbol"%string) 13%N (Some "Vec<u8>"%string) []); (Field (Some "decimals"%string) 2%N (Some "u8"%string) []); (Field (Some "is_frozen"%string) 30%N (Some "bool"%string) [])] 15%N ["New metadata has been set for an asset."%string]); (Variant "MetadataCleared"%string [(Field (Some "asset_id"%string) 4%N (Some "T::AssetId"%string) [])] 16%N ["Metadata has been cleared for an asset."%string]); (Variant "ApprovedTransfer"%string [(Field (Some "asset_id"%string) 4%N (Some "T::AssetId"%string) []); (Field (Some "source"%string) 0%N (Some "T::AccountId"%string) []); (Field (Some "delegate"%string) 0%N (Some "T::AccountId"%string) []); (Field (Some "amount"%string) 6%N (Some "T::Balance"%string) [])] 17%N ["(Additional) funds have been approved for transfer to a destination account."%string]); (Variant "ApprovalCancelled"%string [(Field (Some "asset_id"%string) 4%N (Some "T::AssetId"%string) []); (Field (Some "owner"%string) 0%N (Some "T::AccountId"%string) []); (Field (Some "delegate"%string) 0%N (Some "T::AccountId"%string) [])] 18%N ["An approval for account `delegate` was cancelled by `owner`."%string]); (Variant "TransferredApproved"%string [(Field (Some "asset_id"%string) 4%N (Some "T::AssetId"%string) []); (Field (Some "owner"%string) 0%N (Some "T::AccountId"%string) []); (Field (Some "delegate"%string) 0%N (Some "T::AccountId"%string) []); (Field (Some "destination"%string) 0%N (Some "T::AccountId"%string) []); (Field (Some "amount"%string) 6%N (Some "T::Balance"%string) [])] 19%N ["An `amount` was transferred in its entirety from `owner` to `destination` by"%string; "the approved `delegate`."%string]); (Variant "AssetStatusChanged"%string [(Field (Some "asset_id"%string) 4%N (Some "T::AssetId"%string) [])] 20%N ["An asset has had its attributes changed by the `Force` origin."%string]); (Variant "AssetMinBalanceChanged"%string [(Field (Some "asset_id"%string) 4%N (Some "T::AssetId"%string) []); (Field (Some "new_min_balance"%string) 6%N (Some "T::Balance"%string) [])] 21%N ["The min_balance of an asset has been updated by the asset owner."%string]); (Variant "Touched"%string [(Field (Some "asset_id"%string) 4%N (Some "T::AssetId"%string) []); (Field (Some "who"%string) 0%N (Some "T::AccountId"%string) []); (Field (Some "depositor"%string) 0%N (Some "T::AccountId"%string) [])] 22%N ["Some account `who` was created with a deposit from `depositor`."%string]); (Variant "Blocked"%string [(Field (Some "asset_id"%string) 4%N (Some "T::AssetId"%string) []); (Field (Some "who"%string) 0%N (Some "T::AccountId"%string) [])] 23%N ["Some account `who` was blocked."%string])]) ["The `Event` enum of this pallet"%string]).
Definition md_t147 : ty := (Ty ["pallet_asset_conversion"%string; "pallet"%string; "Event"%string] [("T"%string,None)] (TVariant [(Variant "PoolCreated"%string [(Field (Some "creator"%string) 0%N (Some "T::AccountId"%string) ["The account that created the pool."%string]); (Field (Some "pool_id"%string) 148%N (Some "T::PoolId"%string) ["The pool id associated with the pool. Note that the order of the assets may not be"%string; "the same as the order specified in the create pool extrinsic."%string]); (Field (Some "pool_account"%string) 0%N (Some "T::AccountId"%string) ["The account ID of the pool."%string]); (Field (Some "lp_token"%string) 4%N (Some "T::PoolAssetId"%string) ["The id of the liquidity tokens that will be minted when assets are added to this"%string; "pool."%string])] 0%N ["A successful call of the `CretaPool` extrinsic will create this event."%string]); (Variant "LiquidityAdded"%string [(Field (Some "who"%string) 0%N (Some "T::AccountId"%string) ["The account that the liquidity was taken from."%string]); (Field (Some "mint_to"%string) 0%N (Some "T::AccountId"%string) ["The account that the liquidity tokens were minted to."%string]); (Field (Some "pool_id"%string) 148%N (Some "T::PoolId"%string) ["The pool id of the pool that the liquidity was added to."%string]); (Field (Some "amount1_provided"%string) 6%N (Some "T::Balance"%string) ["The amount of the first asset that was added to the pool."%string]); (Field (Some "amount2_provided"%string) 6%N (Some "T::Balance"%string) ["The amount of the second asset that was added to the pool."%string]); (Field (Some "lp_token"%string) 4%N (Some "T::PoolAssetId"%string) ["The id of the lp token that was minted."%string]); (Field (Some "lp_token_minted"%string) 6%N (Some "T::Balance"%string) ["The amount of lp tokens that were minted of that id."%string])] 1%N ["A successful call of the `AddLiquidity` extrinsic will create this event."%string]); (Variant "LiquidityRemoved"%string [(Field (Some "who"%string) 0%N (Some "T::AccountId"%string) ["The account that the liquidity tokens were burned from."%string]); (Field (Some "withdraw_to"%string) 0%N (Some "T::AccountId"%string) ["The account that the assets were transferred to."%string]); (Field (Some "pool_id"%string) 148%N (Some "T::PoolId"%string) ["The pool id that the liquidity was removed from."%string]); (Field (Some "amount1"%string) 6%N (Some "T::Balance"%string) ["The amount of the first asset that was removed from the pool."%string]); (Field (Some "amount2"%string) 6%N (Some "T::Balance"%string) ["The amount of the second asset that was removed from the pool."%string]); (Field (Some "lp_token"%string) 4%N (Some "T::PoolAssetId"%string) ["The id of the lp token that was burned."%string]); (Field (Some "lp_token_burned"%string) 6%N (Some "T::Balance"%string) ["The amount of lp tokens that were burned of that id."%string]); (Field (Some "withdrawal_fee"%string) 149%N (Some "Permill"%string) ["Liquidity withdrawal fee (%)."%string])] 2%N ["A successful call of the `RemoveLiquidity` extrinsic will create this event."%string]); (Variant "SwapExecuted"%string [(Field (Some "who"%string) 0%N (Some "T::AccountId"%string) ["Which account was the instigator of the swap."%string]); (Field (Some "send_to"%string) 0%N (Some "T::AccountId"%string) ["The account that the assets were transferred to."%string]); (Field (Some "amount_in"%string) 6%N (Some "T::Balance"%string) ["The amount of the first asset that was swapped."%string]); (Field (Some "amount_out"%string) 6%N (Some "T::Balance"%string) ["The amount of the second asset that was received."%string]); (Field (Some "path"%string) 150%N (Some "BalancePath<T>"%string) ["The route of asset IDs with amounts that the swap went through."%string; "E.g. (A, amount_in) -> (Dot, amount_out) -> (B, amount_out)"%string])] 3%N ["Assets have been converted from one to another. Both `SwapExactTokenForToken`"%string; "and `SwapTokenForExactToken` will generate this event."%string]); (Variant "SwapCreditExecuted"%string [(Field (Some "amount_in"%string) 6%N (Some "T::Balance"%string) ["The amount of the first asset that was swapped."%string]); (Field (Some "amount_out"%string) 6%N (Some "T::Balance"%string) ["The amount of the second asset that was received."%string]); (Field (Some "path"%string) 150%N (Some "BalancePath<T>"%string) ["The route of asset IDs with amounts that the swap went through."%string; "E.g. (A, amount_in) -> (Dot, amount_out) -> (B, amount_out)"%string])] 4%N ["Assets have been converted from one to another."%string])]) ["The `Event` enum of this pallet"%string]).
Definition md_t148 : ty := (Ty [] [] (TTuple [37%N; 37%N]) []).
Definition md_t149 : ty := (Ty ["sp_arithmetic"%string; "per_things"%string; "Permill"%string] [] (TComposite [(Field None 4%N (Some "u32"%string) [])]) []).
Definition md_t150 : ty := (Ty [] [] (TSequence 151%N) []).
Definition md_t151 : ty := (Ty [] [] (TTuple [37%N; 6%N]) []).
Definition md_t152 : ty := (Ty ["frame_system"%string; "Phase"%string] [] (TVariant [(Variant "ApplyExtrinsic"%string [(Field None 4%N (Some "u32"%string) [])] 0%N []); (Variant "Finalization"%string [] 1%N []); (Variant "Initialization"%string [] 2%N [])]) []).
Definition md_t153 : ty := (Ty [] [] (TSequence 12%N) []).
Definition md_t154 : ty := (Ty [] [] (TSequence 155%N) []).
Definition md_t155 : ty := (Ty [] [] (TTuple [4%N; 4%N]) []).
Definition md_t156 : ty := (Ty ["frame_system"%string; "LastRuntimeUpgradeInfo"%string] [] (TComposite [(Field (Some "spec_version"%string) 40%N (Some "codec::Compact<u32>"%string) []); (Field (Some "spec_name"%string) 157%N (Some "sp_runtime::RuntimeString"%string) [])]) []).
Definition md_t157 : ty := (Ty [] [] (TPrimitive PrStr) []).
Definition md_t158 : ty := (Ty ["frame_system"%string; "CodeUpgradeAuthorization"%string] [("T"%string,None)] (TComposite [(Field (Some "code_hash"%string) 12%N (Some "T::Hash"%string) []); (Field (Some "check_version"%string) 30%N (Some "bool"%string) [])]) []).
Definition md_t159 : ty := (Ty ["frame_system"%string; "pallet"%string; "Call"%string] [("T"%string,None)] (TVariant [(Variant "remark"%string [(Field (Some "remark"%string) 13%N (Some "Vec<u8>"%string) [])] 0%N ["See [`Pallet::remark`]."%string]); (Variant "set_heap_pages"%string [(Field (Some "pages"%string) 11%N (Some "u64"%string) [])] 1%N ["See [`Pallet::set_heap_pages`]."%string]); (Variant "set_code"%string [(Field (Some "code"%string) 13%N (Some "Vec<u8>"%string) [])] 2%N ["See [`Pallet::set_code`]."%string]); (Variant "set_code_without_checks"%string [(Field (Some "code"%string) 13%N (Some "Vec<u8>"%string) [])] 3%N ["See [`Pallet::set_code_without_checks`]."%string]); (Variant "set_storage"%string [(Field (Some "items"%string) 160%N (Some "Vec<KeyValue>"%string) [])] 4%N ["See [`Pallet::set_storage`]."%string]); (Variant "kill_storage"%string [(Field (Some "keys"%string) 162%N (Some "Vec<Key>"%string) [])] 5%N ["See [`Pallet::kill_storage`]."%string]); (Variant "kill_prefix"%string [(Field (Some "prefix"%string) 13%N (Some "Key"%string) []); (Field (Some "subkeys"%string) 4%N (Some "u32"%string) [])] 6%N ["See [`Pallet::kill_prefix`]."%string]); (Variant "remark_with_event"%string [(Field (Some "remark"%string) 13%N (Some "Vec<u8>"%string) [])] 7%N ["See [`Pallet::remark_with_event`]."%string]); (Variant "authorize_upgrade"%string [(Field (Some "code_hash"%string) 12%N (Some "T::Hash"%string) [])] 9%N ["See [`Pallet::authorize_upgrade`]."%string]); (Variant "authorize_upgrade_without_checks"%string [(Field (Some "code_hash"%string) 12%N (Some "T::Hash"%string) [])] 10%N ["See [`Pallet::authorize_upgrade_without_checks`]."%string]); (Variant "apply_authorized_upgrade"%string [(Field (Some "code"%string) 13%N (Some "Vec<u8>"%string) [])] 11%N ["See [`Pallet::apply_authorized_upgrade`]."%string])]) ["Contains a variant per dispatchable extrinsic that this pallet has."%string]).
Definition md_t160 : ty := (Ty [] [] (TSequence 161%N) []).
Definition md_t161 : ty := (Ty [] [] (TTuple [13%N; 13%N]) []).
Definition md_t162 : ty := (Ty [] [] (TSequence 13%N) []).
Definition md_t163 : ty := (Ty ["frame_system"%string; "limits"%string; "BlockWeights"%string] [] (TComposite [(Field (Some "base_block"%string) 9%N (Some "Weight"%string) []); (Field (Some "max_block"%string) 9%N (Some "Weight"%string) []); (Field (Some "per_class"%string) 164%N (Some "PerDispatchClass<WeightsPerClass>"%string) [])]) []).
Definition md_t164 : ty := (Ty ["frame_support"%string; "dispatch"%string; "PerDispatchClass"%string] [("T"%string,(Some 165%N))] (TComposite [(Field (Some "normal"%string) 165%N (Some "T"%string) []); (Field (Some "operational"%string) 165%N (Some "T"%string) []); (Field (Some "mandatory"%string) 165%N (Some "T"%string) [])]) []).
Definition md_t165 : ty := (Ty ["frame_system"%string; "limits"%string; "WeightsPerClass"%string] [] (TComposite [(Field (Some "base_extrinsic"%string) 9%N (Some "Weight"%string) []); (Field (Some "max_extrinsic"%string) 166%N (Some "Option<Weight>"%string) []); (Field (Some "max_total"%string) 166%N (Some "Option<Weight>"%string) []); (Field (Some "reserved"%string) 166%N (Some "Option<Weight>"%string) [])]) []).
Definition md_t166 : ty := (Ty ["Option"%string] [("T"%string,(Some 9%N))] (TVariant [(Variant "None"%string [] 0%N []); (Variant "Some"%string [(Field None 9%N None [])] 1%N [])]) []).
Definition md_t167 : ty := (Ty ["frame_system"%string; "limits"%string; "BlockLength"%string] [] (TComposite [(Field (Some "max"%string) 168%N (Some "PerDispatchClass<u32>"%string) [])]) []).
Definition md_t168 : ty := (Ty ["frame_support"%string; "dispatch"%string; "PerDispatchClass"%string] [("T"%string,(Some 4%N))] (TComposite [(Field (Some "normal"%string) 4%N (Some "T"%string) []); (Field (Some "operational"%string) 4%N (Some "T"%string) []); (Field (Some "mandatory"%string) 4%N (Some "T"%string) [])]) []).
Definition md_t169 : ty := (Ty ["sp_weights"%string; "RuntimeDbWeight"%string] [] (TComposite [(Field (Some "read"%string) 11%N (Some "u64"%string) []); (Field (Some "write"%string) 11%N (Some "u64"%string) [])]) []).
Definition md_t170 : ty := (Ty ["sp_version"%string; "RuntimeVersion"%string] [] (TComposite [(Field (Some "spec_name"%string) 157%N (Some "RuntimeString"%string) []); (Field (Some "impl_name"%string) 157%N (Some "RuntimeString"%string) []); (Field (Some "authoring_version"%string) 4%N (Some "u32"%string) []); (Field (Some "spec_version"%string) 4%N (Some "u32"%string) []); (Field (Some "impl_version"%string) 4%N (Some "u32"%string) []); (Field (Some "apis"%string) 171%N (Some "ApisVec"%string) []); (Field (Some "transaction_version"%string) 4%N (Some "u32"%string) []); (Field (Some "state_version"%string) 2%N (Some "u8"%string) [])]) []).
Definition md_t171 : ty := (Ty ["Cow"%string] [("T"%string,(Some 172%N))] (TComposite [(Field None 172%N None [])]) []).
Definition md_t172 : ty := (Ty [] [] (TSequence 173%N) []).
Definition md_t173 : ty := (Ty [] [] (TTuple [76%N; 4%N]) []).
Definition md_t174 : ty := (Ty ["frame_system"%string; "pallet"%string; "Error"%string] [("T"%string,None)] (TVariant [(Variant "InvalidSpecName"%string [] 0%N ["The name of specification does not match between the current runtime"%string; "and the new runtime."%string]); (Variant "SpecVersionNeedsToIncrease"%string [] 1%N ["The specification version is not allowed to decrease between the current runtime"%string; "and the new runtime."%string]); (Variant "FailedToExtractRuntimeVersion"%string [] 2%N ["Failed to extract the runtime version from the new runtime."%string; ""%string; "Either calling `Core_version` or decoding `RuntimeVersion` failed."%string]); (Variant "NonDefaultComposite"%string [] 3%N ["Suicide called when the account has non-default composite data."%string]); (Variant "NonZeroRefCount"%string [] 4%N ["There is a non-zero reference count preventing the account from being purged."%string]); (Variant "CallFiltered"%string [] 5%N ["The origin filter prevent the call to be dispatched."%string]); (Variant "NothingAuthorized"%string [] 6%N ["No upgrade authorized."%string]); (Variant "Unauthorized"%string [] 7%N ["The submitted code is not authorized."%string])]) ["Error for the System pallet"%string]).
Definition md_t175 : ty := (Ty [] [] (TSequence 176%N) []).
Definition md_t176 : ty := (Ty ["cumulus_pallet_parachain_system"%string; "unincluded_segment"%string; "Ancestor"%string] [("H"%string,(Some 12%N))] (TComposite [(Field (Some "used_bandwidth"%string) 177%N (Some "UsedBandwidth"%string) []); (Field (Some "para_head_hash"%string) 182%N (Some "Option<H>"%string) []); (Field (Some "consumed_go_ahead_signal"%string) 183%N (Some "Option<relay_chain::UpgradeGoAhead>"%string) [])]) []).
Definition md_t177 : ty := (Ty ["cumulus_pallet_parachain_system"%string; "unincluded_segment"%string; "UsedBandwidth"%string] [] (TComposite [(Field (Some "ump_msg_count"%string) 4%N (Some "u32"%string) []); (Field (Some "ump_total_bytes"%string) 4%N (Some "u32"%string) []); (Field (Some "hrmp_outgoing"%string) 178%N (Some "BTreeMap<ParaId, HrmpChannelUpdate>"%string) [])]) []).
Definition md_t178 : ty := (Ty ["BTreeMap"%string] [("K"%string,(Some 120%N)); ("V"%string,(Some 179%N))] (TComposite [(Field None 180%N None [])]) []).
Definition md_t179 : ty := (Ty ["cumulus_pallet_parachain_system"%string; "unincluded_segment"%string; "HrmpChannelUpdate"%string] [] (TComposite [(Field (Some "msg_count"%string) 4%N (Some "u32"%string) []); (Field (Some "total_bytes"%string) 4%N (Some "u32"%string) [])]) []).
Definition md_t180 : ty := (Ty [] [] (TSequence 181%N) []).
Definition md_t181 : ty := (Ty [] [] (TTuple [120%N; 179%N]) []).
Definition md_t182 : ty := (Ty ["Option"%string] [("T"%string,(Some 12%N))] (TVariant [(Variant "None"%string [] 0%N []); (Variant "Some"%string [(Field None 12%N None [])] 1%N [])]) []).
Definition md_t183 : ty := (Ty ["Option"%string] [("T"%string,(Some 184%N))] (TVariant [(Variant "None"%string [] 0%N []); (Variant "Some"%string [(Field None 184%N None [])] 1%N [])]) []).
Definition md_t184 : ty := (Ty ["polkadot_primitives"%string; "v6"%string; "UpgradeGoAhead"%string] [] (TVariant [(Variant "Abort"%string [] 0%N []); (Variant "GoAhead"%string [] 1%N [])]) []).
Definition md_t185 : ty := (Ty ["cumulus_pallet_parachain_system"%string; "unincluded_segment"%string; "SegmentTracker"%string] [("H"%string,(Some 12%N))] (TComposite [(Field (Some "used_bandwidth"%string) 177%N (Some "UsedBandwidth"%string) []); (Field (Some "hrmp_watermark"%string) 134%N (Some "Option<relay_chain::BlockNumber>"%string) []); (Field (Some "consumed_go_ahead_signal"%string) 183%N (Some "Option<relay_chain::UpgradeGoAhead>"%string) [])]) []).
Definition md_t186 : ty := (Ty ["polkadot_primitives"%string; "v6"%string; "PersistedValidationData"%string] [("H"%string,(Some 12%N)); ("N"%string,(Some 4%N))] (TComposite [(Field (Some "parent_head"%string) 187%N (Some "HeadData"%string) []); (Field (Some "relay_parent_number"%string) 4%N (Some "N"%string) []); (Field (Some "relay_parent_storage_root"%string) 12%N (Some "H"%string) []); (Field (Some "max_pov_size"%string) 4%N (Some "u32"%string) [])]) []).
Definition md_t187 : ty := (Ty ["polkadot_parachain_primitives"%string; "primitives"%string; "HeadData"%string] [] (TComposite [(Field None 13%N (Some "Vec<u8>"%string) [])]) []).
Definition md_t188 : ty := (Ty ["Option"%string] [("T"%string,(Some 189%N))] (TVariant [(Variant "None"%string [] 0%N []); (Variant "Some"%string [(Field None 189%N None [])] 1%N [])]) []).
Definition md_t189 : ty := (Ty ["polkadot_primitives"%string; "v6"%string; "UpgradeRestriction"%string] [] (TVariant [(Variant "Present"%string [] 0%N [])]) []).
Definition md_t190 : ty := (Ty ["sp_trie"%string; "storage_proof"%string; "StorageProof"%string] [] (TComposite [(Field (Some "trie_nodes"%string) 191%N (Some "BTreeSet<Vec<u8>>"%string) [])]) []).
Definition md_t191 : ty := (Ty ["BTreeSet"%string] [("T"%string,(Some 13%N))] (TComposite [(Field None 162%N None [])]) []).
Definition md_t192 : ty := (Ty ["cumulus_pallet_parachain_system"%string; "relay_state_snapshot"%string; "MessagingStateSnapshot"%string] [] (TComposite [(Field (Some "dmq_mqc_head"%string) 12%N (Some "relay_chain::Hash"%string) []); (Field (Some "relay_dispatch_queue_remaining_capacity"%string) 193%N (Some "RelayDispatchQueueRemainingCapacity"%string) []); (Field (Some "ingress_channels"%string) 194%N (Some "Vec<(ParaId, AbridgedHrmpChannel)>"%string) []); (Field (Some "egress_channels"%string) 194%N (Some "Vec<(ParaId, AbridgedHrmpChannel)>"%string) [])]) []).
Definition md_t193 : ty := (Ty ["cumulus_pallet_parachain_system"%string; "relay_state_snapshot"%string; "RelayDispatchQueueRemainingCapacity"%string] [] (TComposite [(Field (Some "remaining_count"%string) 4%N (Some "u32"%string) []); (Field (Some "remaining_size"%string) 4%N (Some "u32"%string) [])]) []).
Definition md_t194 : ty := (Ty [] [] (TSequence 195%N) []).
Definition md_t195 : ty := (Ty [] [] (TTuple [120%N; 196%N]) []).
Definition md_t196 : ty := (Ty ["polkadot_primitives"%string; "v6"%string; "AbridgedHrmpChannel"%string] [] (TComposite [(Field (Some "max_capacity"%string) 4%N (Some "u32"%string) []); (Field (Some "max_total_size"%string) 4%N (Some "u32"%string) []); (Field (Some "max_message_size"%string) 4%N (Some "u32"%string) []); (Field (Some "msg_count"%string) 4%N (Some "u32"%string) []); (Field (Some "total_size"%string) 4%N (Some "u32"%string) []); (Field (Some "mqc_head"%string) 182%N (Some "Option<Hash>"%string) [])]) []).
Definition md_t197 : ty := (Ty ["polkadot_primitives"%string; "v6"%string; "AbridgedHostConfiguration"%string] [] (TComposite [(Field (Some "max_code_size"%string) 4%N (Some "u32"%string) []); (Field (Some "max_head_data_size"%string) 4%N (Some "u32"%string) []); (Field (Some "max_upward_queue_count"%string) 4%N (Some "u32"%string) []); (Field (Some "max_upward_queue_size"%string) 4%N (Some "u32"%string) []); (Field (Some "max_upward_message_size"%string) 4%N (Some "u32"%string) []); (Field (Some "max_upward_message_num_per_candidate"%string) 4%N (Some "u32"%string) []); (Field (Some "hrmp_max_message_num_per_candidate"%string) 4%N (Some "u32"%string) []); (Field (Some "validation_upgrade_cooldown"%string) 4%N (Some "BlockNumber"%string) []); (Field (Some "validation_upgrade_delay"%string) 4%N (Some "BlockNumber"%string) []); (Field (Some "async_backing_params"%string) 198%N (Some "AsyncBackingParams"%string) [])]) []).
Definition md_t198 : ty := (Ty ["polkadot_primitives"%string; "v6"%string; "async_backing"%string; "AsyncBackingParams"%string] [] (TComposite [(Field (Some "max_candidate_depth"%string) 4%N (Some "u32"%string) []); (Field (Some "allowed_ancestry_len"%string) 4%N (Some "u32"%string) [])]) []).
Definition md_t199 : ty := (Ty ["cumulus_primitives_parachain_inherent"%string; "MessageQueueChain"%string] [] (TComposite [(Field None 12%N (Some "RelayHash"%string) [])]) []).
Definition md_t200 : ty := (Ty ["BTreeMap"%string] [("K"%string,(Some 120%N)); ("V"%string,(Some 199%N))] (TComposite [(Field None 201%N None [])]) []).
Definition md_t201 : ty := (Ty [] [] (TSequence 202%N) []).
Definition md_t202 : ty := (Ty [] [] (TTuple [120%N; 199%N]) []).
Definition md_t203 : ty := (Ty [] [] (TSequence 204%N) []).
Definition md_t204 : ty := (Ty ["polkadot_core_primitives"%string; "OutboundHrmpMessage"%string] [("Id"%string,(Some 120%N))] (TComposite [(Field (Some "recipient"%string) 120%N (Some "Id"%string) []); (Field (Some "data"%string) 13%N (Some "sp_std::vec::Vec<u8>"%string) [])]) []).
Definition md_t205 : ty := (Ty ["sp_arithmetic"%string; "fixed_point"%string; "FixedU128"%string] [] (TComposite [(Field None 6%N (Some "u128"%string) [])]) []).
Definition md_t206 : ty := (Ty ["cumulus_pallet_parachain_system"%string; "pallet"%string; "Call"%string] [("T"%string,None)] (TVariant [(Variant "set_validation_data"%string [(Field (Some "data"%string) 207%N (Some "ParachainInherentData"%string) [])] 0%N ["See [`Pallet::set_validation_data`]."%string]); (Variant "sudo_send_upward_message"%string [(Field (Some "message"%string) 13%N (Some "UpwardMessage"%string) [])] 1%N ["See [`Pallet::sudo_send_upward_message`]."%string]); (Variant "authorize_upgrade"%string [(Field (Some "code_hash"%string) 12%N (Some "T::Hash"%string) []); (Field (Some "check_version"%string) 30%N (Some "bool"%string) [])] 2%N ["See [`Pallet::authorize_upgrade`]."%string]); (Variant "enact_authorized_upgrade"%string [(Field (Some "code"%string) 13%N (Some "Vec<u8>"%string) [])] 3%N ["See [`Pallet::enact_authorized_upgrade`]."%string])]) ["Contains a variant per dispatchable extrinsic that this pallet has."%string]).
Definition md_t207 : ty := (Ty ["cumulus_primitives_parachain_inherent"%string; "ParachainInherentData"%string] [] (TComposite [(Field (Some "validation_data"%string) 186%N (Some "PersistedValidationData"%string) []); (Field (Some "relay_chain_state"%string) 190%N (Some "sp_trie::StorageProof"%string) []); (Field (Some "downward_messages"%string) 208%N (Some "Vec<InboundDownwardMessage>"%string) []); (Field (Some "horizontal_messages"%string) 210%N (Some "BTreeMap<ParaId, Vec<InboundHrmpMessage>>"%string) [])]) []).
Definition md_t208 : ty := (Ty [] [] (TSequence 209%N) []).
Definition md_t209 : ty := (Ty ["polkadot_core_primitives"%string; "InboundDownwardMessage"%string] [("BlockNumber"%string,(Some 4%N))] (TComposite [(Field (Some "sent_at"%string) 4%N (Some "BlockNumber"%string) []); (Field (Some "msg"%string) 13%N (Some "DownwardMessage"%string) [])]) []).
Definition md_t210 : ty := (Ty ["BTreeMap"%string] [("K"%string,(Some 120%N)); ("V"%string,(Some 211%N))] (TComposite [(Field None 213%N None [])]) []).
Definition md_t211 : ty := (Ty [] [] (TSequence 212%N) []).
Definition md_t212 : ty := (Ty ["polkadot_core_primitives"%string; "InboundHrmpMessage"%string] [("BlockNumber"%string,(Some 4%N))] (TComposite [(Field (Some "sent_at"%string) 4%N (Some "BlockNumber"%string) []); (Field (Some "data"%string) 13%N (Some "sp_std::vec::Vec<u8>"%string) [])]) []).
Definition md_t213 : ty := (Ty [] [] (TSequence 214%N) []).
Definition md_t214 : ty := (Ty [] [] (TTuple [120%N; 211%N]) []).
Definition md_t215 : ty := (Ty ["cumulus_pallet_parachain_system"%string; "pallet"%string; "Error"%string] [("T"%string,None)] (TVariant [(Variant "OverlappingUpgrades"%string [] 0%N ["Attempt to upgrade validation function while existing upgrade pending."%string]); (Variant "ProhibitedByPolkadot"%string [] 1%N ["Polkadot currently prohibits this parachain from upgrading its validation function."%string]); (Variant "TooBig"%string [] 2%N ["The supplied validation function has compiled into a blob larger than Polkadot is"%string; "willing to run."%string]); (Variant "ValidationDataNotAvailable"%string [] 3%N ["The inherent which supplies the validation data did not run this block."%string]); (Variant "HostConfigurationNotAvailable"%string [] 4%N ["The inherent which supplies the host configuration did not run this block."%string]); (Variant "NotScheduled"%string [] 5%N ["No validation function upgrade is currently scheduled."%string]); (Variant "NothingAuthorized"%string [] 6%N ["No code upgrade has been authorized."%string]); (Variant "Unauthorized"%string [] 7%N ["The given code upgrade has not been authorized."%string])]) ["The `Error` enum of this pallet."%string]).
Definition md_t216 : ty := (Ty ["pallet_timestamp"%string; "pallet"%string; "Call"%string] [("T"%string,None)] (TVariant [(Variant "set"%string [(Field (Some "now"%string) 10%N (Some "T::Moment"%string) [])] 0%N ["See [`Pallet::set`]."%string])]) ["Contains a variant per dispatchable extrinsic that this pallet has."%string]).
Definition md_t217 : ty := (Ty ["staging_parachain_info"%string; "pallet"%string; "Call"%string] [("T"%string,None)] (TVariant []) ["Contains a variant per dispatchable extrinsic that this pallet has."%string]).
Definition md_t218 : ty := (Ty ["bounded_collections"%string; "weak_bounded_vec"%string; "WeakBoundedVec"%string] [("T"%string,(Some 219%N)); ("S"%string,None)] (TComposite [(Field None 221%N (Some "Vec<T>"%string) [])]) []).
Definition md_t219 : ty := (Ty ["pallet_balances"%string; "types"%string; "BalanceLock"%string] [("Balance"%string,(Some 6%N))] (TComposite [(Field (Some "id"%string) 76%N (Some "LockIdentifier"%string) []); (Field (Some "amount"%string) 6%N (Some "Balance"%string) []); (Field (Some "reasons"%string) 220%N (Some "Reasons"%string) [])]) []).
Definition md_t220 : ty := (Ty ["pallet_balances"%string; "types"%string; "Reasons"%string] [] (TVariant [(Variant "Fee"%string [] 0%N []); (Variant "Misc"%string [] 1%N []); (Variant "All"%string [] 2%N [])]) []).
Definition md_t221 : ty := (Ty [] [] (TSequence 219%N) []).
Definition md_t222 : ty := (Ty ["bounded_collections"%string; "bounded_vec"%string; "BoundedVec"%string] [("T"%string,(Some 223%N)); ("S"%string,None)] (TComposite [(Field None 224%N (Some "Vec<T>"%string) [])]) []).
Definition md_t223 : ty := (Ty ["pallet_balances"%string; "types"%string; "ReserveData"%string] [("ReserveIdentifier"%string,(Some 76%N)); ("Balance"%string,(Some 6%N))] (TComposite [(Field (Some "id"%string) 76%N (Some "ReserveIdentifier"%string) []); (Field (Some "amount"%string) 6%N (Some "Balance"%string) [])]) []).
Definition md_t224 : ty := (Ty [] [] (TSequence 223%N) []).
Definition md_t225 : ty := (Ty ["bounded_collections"%string; "bounded_vec"%string; "BoundedVec"%string] [("T"%string,(Some 226%N)); ("S"%string,None)] (TComposite [(Field None 228%N (Some "Vec<T>"%string) [])]) []).
Definition md_t226 : ty := (Ty ["pallet_balances"%string; "types"%string; "IdAmount"%string] [("Id"%string,(Some 227%N)); ("Balance"%string,(Some 6%N))] (TComposite [(Field (Some "id"%string) 227%N (Some "Id"%string) []); (Field (Some "amount"%string) 6%N (Some "Balance"%string) [])]) []).
Definition md_t227 : ty := (Ty ["asset_hub_polkadot_runtime"%string; "RuntimeHoldReason"%string] [] (TVariant []) []).
Definition md_t228 : ty := (Ty [] [] (TSequence 226%N) []).
Definition md_t229 : ty := (Ty ["bounded_collections"%string; "bounded_vec"%string; "BoundedVec"%string] [("T"%string,(Some 230%N)); ("S"%string,None)] (TComposite [(Field None 231%N (Some "Vec<T>"%string) [])]) []).
Definition md_t230 : ty := (Ty ["pallet_balances"%string; "types"%string; "IdAmount"%string] [("Id"%string,(Some 124%N)); ("Balance"%string,(Some 6%N))] (TComposite [(Field (Some "id"%string) 124%N (Some "Id"%string) []); (Field (Some "amount"%string) 6%N (Some "Balance"%string) [])]) []).
Definition md_t231 : ty := (Ty [] [] (TSequence 230%N) []).
Definition md_t232 : ty := (Ty ["pallet_balances"%string; "pallet"%string; "Call"%string] [("T"%string,None); ("I"%string,None)] (TVariant [(Variant "transfer_allow_death"%string [(Field (Some "dest"%string) 233%N (Some "AccountIdLookupOf<T>"%string) []); (Field (Some "value"%string) 44%N (Some "T::Balance"%string) [])] 0%N ["See [`Pallet::transfer_allow_death`]."%string]); (Variant "force_transfer"%string [(Field (Some "source"%string) 233%N (Some "AccountIdLookupOf<T>"%string) []); (Field (Some "dest"%string) 233%N (Some "AccountIdLookupOf<T>"%string) []); (Field (Some "value"%string) 44%N (Some "T::Balance"%string) [])] 2%N ["See [`Pallet::force_transfer`]."%string]); (Variant "transfer_keep_alive"%string [(Field (Some "dest"%string) 233%N (Some "AccountIdLookupOf<T>"%string) []); (Field (Some "value"%string) 44%N (Some "T::Balance"%string) [])] 3%N ["See [`Pallet::transfer_keep_alive`]."%string]); (Variant "transfer_all"%string [(Field (Some "dest"%string) 233%N (Some "AccountIdLookupOf<T>"%string) []); (Field (Some "keep_alive"%string) 30%N (Some "bool"%string) [])] 4%N ["See [`Pallet::transfer_all`]."%string]); (Variant "force_unreserve"%string [(Field (Some "who"%string) 233%N (Some "AccountIdLookupOf<T>"%string) []); (Field (Some "amount"%string) 6%N (Some "T::Balance"%string) [])] 5%N ["See [`Pallet::force_unreserve`]."%string]); (Variant "upgrade_accounts"%string [(Field (Some "who"%string) 48%N (Some "Vec<T::AccountId>"%string) [])] 6%N ["See [`Pallet::upgrade_accounts`]."%string]); (Variant "force_set_balance"%string [(Field (Some "who"%string) 233%N (Some "AccountIdLookupOf<T>"%string) []); (Field (Some "new_free"%string) 44%N (Some "T::Balance"%string) [])] 8%N ["See [`Pallet::force_set_balance`]."%string]); (Variant "force_adjust_total_issuance"%string [(Field (Some "direction"%string) 235%N (Some "AdjustmentDirection"%string) []); (Field (Some "delta"%string) 44%N (Some "T::Balance"%string) [])] 9%N ["See [`Pallet::force_adjust_total_issuance`]."%string])]) ["Contains a variant per dispatchable extrinsic that this pallet has."%string]).
Definition md_t233 : ty := (Ty ["sp_runtime"%string; "multiaddress"%string; "MultiAddress"%string] [("AccountId"%string,(Some 0%N)); ("AccountIndex"%string,(Some 124%N))] (TVariant [(Variant "Id"%string [(Field None 0%N (Some "AccountId"%string) [])] 0%N []); (Variant "Index"%string [(Field None 234%N (Some "AccountIndex"%string) [])] 1%N []); (Variant "Raw"%string [(Field None 13%N (Some "Vec<u8>"%string) [])] 2%N []); (Variant "Address32"%string [(Field None 1%N (Some "[u8; 32]"%string) [])] 3%N []); (Variant "Address20"%string [(Field None 43%N (Some "[u8; 20]"%string) [])] 4%N [])]) []).
Definition md_t234 : ty := (Ty [] [] (TCompact 124%N) []).
Definition md_t235 : ty := (Ty ["pallet_balances"%string; "types"%string; "AdjustmentDirection"%string] [] (TVariant [(Variant "Increase"%string [] 0%N []); (Variant "Decrease"%string [] 1%N [])]) []).
Definition md_t236 : ty := (Ty ["pallet_balances"%string; "pallet"%string; "Error"%string] [("T"%string,None); ("I"%string,None)] (TVariant [(Variant "VestingBalance"%string [] 0%N ["Vesting balance too high to send value."%string]); (Variant "LiquidityRestrictions"%string [] 1%N ["Account liquidity restrictions prevent withdrawal."%string]); (Variant "InsufficientBalance"%string [] 2%N ["Balance too low to send value."%string]); (Variant "ExistentialDeposit"%string [] 3%N ["Value too low to create account due to existential deposit."%string]); (Variant "Expendability"%string [] 4%N ["Transfer/payment would kill account."%string]); (Variant "ExistingVestingSchedule"%string [] 5%N ["A vesting schedule already exists for this account."%string]); (Variant "DeadAccount"%string [] 6%N ["Beneficiary account must pre-exist."%string]); (Variant "TooManyReserves"%string [] 7%N ["Number of named reserves exceed `MaxReserves`."%string]); (Variant "TooManyHolds"%string [] 8%N ["Number of holds exceed `VariantCountOf<T::RuntimeHoldReason>`."%string]); (Variant "TooManyFreezes"%string [] 9%N ["Number of freezes exceed `MaxFreezes`."%string]); (Variant "IssuanceDeactivated"%string [] 10%N ["The issuance cannot be modified since it is already deactivated."%string]); (Variant "DeltaZero"%string [] 11%N ["The delta cannot be zero."%string])]) ["The `Error` enum of this pallet."%string]).
Definition md_t237 : ty := (Ty ["pallet_transaction_payment"%string; "Releases"%string] [] (TVariant [(Variant "V1Ancient"%string [] 0%N []); (Variant "V2"%string [] 1%N [])]) []).
Definition md_t238 : ty := (Ty ["bounded_collections"%string; "bounded_vec"%string; "BoundedVec"%string] [("T"%string,(Some 0%N)); ("S"%string,None)] (TComposite [(Field None 48%N (Some "Vec<T>"%string) [])]) []).
Definition md_t239 : ty := (Ty ["bounded_collections"%string; "bounded_vec"%string; "BoundedVec"%string] [("T"%string,(Some 240%N)); ("S"%string,None)] (TComposite [(Field None 241%N (Some "Vec<T>"%string) [])]) []).
Definition md_t240 : ty := (Ty ["pallet_collator_selection"%string; "pallet"%string; "CandidateInfo"%string] [("AccountId"%string,(Some 0%N)); ("Balance"%string,(Some 6%N))] (TComposite [(Field (Some "who"%string) 0%N (Some "AccountId"%string) []); (Field (Some "deposit"%string) 6%N (Some "Balance"%string) [])]) []).
Definition md_t241 : ty := (Ty [] [] (TSequence 240%N) []).
Definition md_t242 : ty := (Ty ["pallet_collator_selection"%string; "pallet"%string; "Call"%string] [("T"%string,None)] (TVariant [(Variant "set_invulnerables"%string [(Field (Some "new"%string) 48%N (Some "Vec<T::AccountId>"%string) [])] 0%N ["See [`Pallet::set_invulnerables`]."%string]); (Variant "set_desired_candidates"%string [(Field (Some "max"%string) 4%N (Some "u32"%string) [])] 1%N ["See [`Pallet::set_desired_candidates`]."%string]); (Variant "set_candidacy_bond"%string [(Field (Some "bond"%string) 6%N (Some "BalanceOf<T>"%string) [])] 2%N ["See [`Pallet::set_candidacy_bond`]."%string]); (Variant "register_as_candidate"%string [] 3%N ["See [`Pallet::register_as_candidate`]."%string]); (Variant "leave_intent"%string [] 4%N ["See [`Pallet::leave_intent`]."%string]); (Variant "add_invulnerable"%string [(Field (Some "who"%string) 0%N (Some "T::AccountId"%string) [])] 5%N ["See [`Pallet::add_invulnerable`]."%string]); (Variant "remove_invulnerable"%string [(Field (Some "who"%string) 0%N (Some "T::AccountId"%string) [])] 6%N ["See [`Pallet::remove_invulnerable`]."%string]); (Variant "update_bond"%string [(Field (Some "new_deposit"%string) 6%N (Some "BalanceOf<T>"%string) [])] 7%N ["See [`Pallet::update_bond`]."%string]); (Variant "take_candidate_slot"%string [(Field (Some "deposit"%string) 6%N (Some "BalanceOf<T>"%string) []); (Field (Some "target"%string) 0%N (Some "T::AccountId"%string) [])] 8%N ["See [`Pallet::take_candidate_slot`]."%string])]) ["Contains a variant per dispatchable extrinsic that this pallet has."%string]).
Definition md_t243 : ty := (Ty ["pallet_collator_selection"%string; "pallet"%string; "Error"%string] [("T"%string,None)] (TVariant [(Variant "TooManyCandidates"%string [] 0%N ["The pallet has too many candidates."%string]); (Variant "TooFewEligibleCollators"%string [] 1%N ["Leaving would result in too few candidates."%string]); (Variant "AlreadyCandidate"%string [] 2%N ["Account is already a candidate."%string]); (Variant "NotCandidate"%string [] 3%N ["Account is not a candidate."%string]); (Variant "TooManyInvulnerables"%string [] 4%N ["There are too many Invulnerables."%string]); (Variant "AlreadyInvulnerable"%string [] 5%N ["Account is already an Invulnerable."%string]); (Variant "NotInvulnerable"%string [] 6%N ["Account is not an Invulnerable."%string]); (Variant "NoAssociatedValidatorId"%string [] 7%N ["Account has no associated validator ID."%string]); (Variant "ValidatorNotRegistered"%string [] 8%N ["Validator ID is not yet registered."%string]); (Variant "InsertToCandidateListFailed"%string [] 9%N ["Could not insert in the candidate list."%string]); (Variant "RemoveFromCandidateListFailed"%string [] 10%N ["Could not remove from the candidate list."%string]); (Variant "DepositTooLow"%string [] 11%N ["New deposit amount would be below the minimum candidacy bond."%string]); (Variant "UpdateCandidateListFailed"%string [] 12%N ["Could not update the candidate list."%string]); (Variant "InsufficientBond"%string [] 13%N ["Deposit amount is too low to take the target's slot in the candidate list."%string]); (Variant "TargetIsNotCandidate"%string [] 14%N ["The target account to be replaced in the candidate list is not a candidate."%string]); (Variant "IdenticalDeposit"%string [] 15%N ["The updated deposit amount is equal to the amount already reserved."%string]); (Variant "InvalidUnreserve"%string [] 16%N ["Cannot lower candidacy bond while occupying a future collator slot in the list."%string])]) ["The `Error` enum of this pallet."%string]).
Definition md_t244 : ty := (Ty [] [] (TSequence 245%N) []).
Definition md_t245 : ty := (Ty [] [] (TTuple [0%N; 246%N]) []).
Definition md_t246 : ty := (Ty ["asset_hub_polkadot_runtime"%string; "SessionKeys"%string] [] (TComposite [(Field (Some "aura"%string) 247%N (Some "<Aura as $crate::BoundToRuntimeAppPublic>::Public"%string) [])]) []).
Definition md_t247 : ty := (Ty ["sp_consensus_aura"%string; "ed25519"%string; "app_ed25519"%string; "Public"%string] [] (TComposite [(Field None 248%N (Some "ed25519::Public"%string) [])]) []).
Definition md_t248 : ty := (Ty ["sp_core"%string; "ed25519"%string; "Public"%string] [] (TComposite [(Field None 1%N (Some "[u8; 32]"%string) [])]) []).
Definition md_t249 : ty := (Ty [] [] (TTuple [250%N; 13%N]) []).
Definition md_t250 : ty := (Ty ["sp_core"%string; "crypto"%string; "KeyTypeId"%string] [] (TComposite [(Field None 17%N (Some "[u8; 4]"%string) [])]) []).
Definition md_t251 : ty := (Ty ["pallet_session"%string; "pallet"%string; "Call"%string] [("T"%string,None)] (TVariant [(Variant "set_keys"%string [(Field (Some "keys"%string) 246%N (Some "T::Keys"%string) []); (Field (Some "proof"%string) 13%N (Some "Vec<u8>"%string) [])] 0%N ["See [`Pallet::set_keys`]."%string]); (Variant "purge_keys"%string [] 1%N ["See [`Pallet::purge_keys`]."%string])]) ["Contains a variant per dispatchable extrinsic that this pallet has."%string]).
Definition md_t252 : ty := (Ty ["pallet_session"%string; "pallet"%string; "Error"%string] [("T"%string,None)] (TVariant [(Variant "InvalidProof"%string [] 0%N ["Invalid ownership proof."%string]); (Variant "NoAssociatedValidatorId"%string [] 1%N ["No associated validator ID for account."%string]); (Variant "DuplicatedKey"%string [] 2%N ["Registered duplicate key."%string]); (Variant "NoKeys"%string [] 3%N ["No keys are associated with this account."%string]); (Variant "NoAccount"%string [] 4%N ["Key setting account is not live, so it's impossible to associate keys."%string])]) ["Error for the session pallet."%string]).
Definition md_t253 : ty := (Ty ["bounded_collections"%string; "bounded_vec"%string; "BoundedVec"%string] [("T"%string,(Some 247%N)); ("S"%string,None)] (TComposite [(Field None 254%N (Some "Vec<T>"%string) [])]) []).
Definition md_t254 : ty := (Ty [] [] (TSequence 247%N) []).
Definition md_t255 : ty := (Ty ["sp_consensus_slots"%string; "Slot"%string] [] (TComposite [(Field None 11%N (Some "u64"%string) [])]) []).
Definition md_t256 : ty := (Ty [] [] (TTuple [255%N; 4%N]) []).
Definition md_t257 : ty := (Ty ["bounded_collections"%string; "bounded_btree_set"%string; "BoundedBTreeSet"%string] [("T"%string,(Some 120%N)); ("S"%string,None)] (TComposite [(Field None 258%N (Some "BTreeSet<T>"%string) [])]) []).
Definition md_t258 : ty := (Ty ["BTreeSet"%string] [("T"%string,(Some 120%N))] (TComposite [(Field None 259%N None [])]) []).
Definition md_t259 : ty := (Ty [] [] (TSequence 120%N) []).
Definition md_t260 : ty := (Ty [] [] (TSequence 261%N) []).
Definition md_t261 : ty := (Ty ["cumulus_pallet_xcmp_queue"%string; "OutboundChannelDetails"%string] [] (TComposite [(Field (Some "recipient"%string) 120%N (Some "ParaId"%string) []); (Field (Some "state"%string) 262%N (Some "OutboundState"%string) []); (Field (Some "signals_exist"%string) 30%N (Some "bool"%string) []); (Field (Some "first_index"%string) 129%N (Some "u16"%string) []); (Field (Some "last_index"%string) 129%N (Some "u16"%string) [])]) []).
Definition md_t262 : ty := (Ty ["cumulus_pallet_xcmp_queue"%string; "OutboundState"%string] [] (TVariant [(Variant "Ok"%string [] 0%N []); (Variant "Suspended"%string [] 1%N [])]) []).
Definition md_t263 : ty := (Ty [] [] (TTuple [120%N; 129%N]) []).
Definition md_t264 : ty := (Ty ["cumulus_pallet_xcmp_queue"%string; "QueueConfigData"%string] [] (TComposite [(Field (Some "suspend_threshold"%string) 4%N (Some "u32"%string) []); (Field (Some "drop_threshold"%string) 4%N (Some "u32"%string) []); (Field (Some "resume_threshold"%string) 4%N (Some "u32"%string) [])]) []).
Definition md_t265 : ty := (Ty ["cumulus_pallet_xcmp_queue"%string; "pallet"%string; "Call"%string] [("T"%string,None)] (TVariant [(Variant "suspend_xcm_execution"%string [] 1%N ["See [`Pallet::suspend_xcm_execution`]."%string]); (Variant "resume_xcm_execution"%string [] 2%N ["See [`Pallet::resume_xcm_execution`]."%string]); (Variant "update_suspend_threshold"%string [(Field (Some "new"%string) 4%N (Some "u32"%string) [])] 3%N ["See [`Pallet::update_suspend_threshold`]."%string]); (Variant "update_drop_threshold"%string [(Field (Some "new"%string) 4%N (Some "u32"%string) [])] 4%N ["See [`Pallet::update_drop_threshold`]."%string]); (Variant "update_resume_threshold"%string [(Field (Some "new"%string) 4%N (Some "u32"%string) [])] 5%N ["See [`Pallet::update_resume_threshold`]."%string])]) ["Contains a variant per dispatchable extrinsic that this pallet has."%string]).
Definition md_t266 : ty := (Ty ["cumulus_pallet_xcmp_queue"%string; "pallet"%string; "Error"%string] [("T"%string,None)] (TVariant [(Variant "BadQueueConfig"%string [] 0%N ["Setting the queue config failed since one of its values was invalid."%string]); (Variant "AlreadySuspended"%string [] 1%N ["The execution is already suspended."%string]); (Variant "AlreadyResumed"%string [] 2%N ["The execution is already resumed."%string])]) ["The `Error` enum of this pallet."%string]).
Definition md_t267 : ty := (Ty ["pallet_xcm"%string; "pallet"%string; "QueryStatus"%string] [("BlockNumber"%string,(Some 4%N))] (TVariant [(Variant "Pending"%string [(Field (Some "responder"%string) 115%N (Some "VersionedLocation"%string) []); (Field (Some "maybe_match_querier"%string) 268%N (Some "Option<VersionedLocation>"%string) []); (Field (Some "maybe_notify"%string) 269%N (Some "Option<(u8, u8)>"%string) []); (Field (Some "timeout"%string) 4%N (Some "BlockNumber"%string) [])] 0%N []); (Variant "VersionNotifier"%string [(Field (Some "origin"%string) 115%N (Some "VersionedLocation"%string) []); (Field (Some "is_active"%string) 30%N (Some "bool"%string) [])] 1%N []); (Variant "Ready"%string [(Field (Some "response"%string) 271%N (Some "VersionedResponse"%string) []); (Field (Some "at"%string) 4%N (Some "BlockNumber"%string) [])] 2%N [])]) []).
Definition md_t268 : ty := (Ty ["Option"%string] [("T"%string,(Some 115%N))] (TVariant [(Variant "None"%string [] 0%N []); (Variant "Some"%string [(Field None 115%N None [])] 1%N [])]) []).
Definition md_t269 : ty := (Ty ["Option"%string] [("T"%string,(Some 270%N))] (TVariant [(Variant "None"%string [] 0%N []); (Variant "Some"%string [(Field None 270%N None [])] 1%N [])]) []).
Definition md_t270 : ty := (Ty [] [] (TTuple [2%N; 2%N]) []).
Definition md_t271 : ty := (Ty ["xcm"%string; "VersionedResponse"%string] [] (TVariant [(Variant "V2"%string [(Field None 272%N (Some "v2::Response"%string) [])] 2%N []); (Variant "V3"%string [(Field None 276%N (Some "v3::Response"%string) [])] 3%N []); (Variant "V4"%string [(Field None 78%N (Some "v4::Response"%string) [])] 4%N [])]) []).
Definition md_t272 : ty := (Ty ["xcm"%string; "v2"%string; "Response"%string] [] (TVariant [(Variant "Null"%string [] 0%N []); (Variant "Assets"%string [(Field None 96%N (Some "MultiAssets"%string) [])] 1%N []); (Variant "ExecutionResult"%string [(Field None 273%N (Some "Option<(u32, Error)>"%string) [])] 2%N []); (Variant "Version"%string [(Field None 4%N (Some "super::Version"%string) [])] 3%N [])]) []).
Definition md_t273 : ty := (Ty ["Option"%string] [("T"%string,(Some 274%N))] (TVariant [(Variant "None"%string [] 0%N []); (Variant "Some"%string [(Field None 274%N None [])] 1%N [])]) []).
Definition md_t274 : ty := (Ty [] [] (TTuple [4%N; 275%N]) []).
Definition md_t275 : ty := (Ty ["xcm"%string; "v2"%string; "traits"%string; "Error"%string] [] (TVariant [(Variant "Overflow"%string [] 0%N []); (Variant "Unimplemented"%string [] 1%N []); (Variant "UntrustedReserveLocation"%string [] 2%N []); (Variant "UntrustedTeleportLocation"%string [] 3%N []); (Variant "MultiLocationFull"%string [] 4%N []); (Variant "MultiLocationNotInvertible"%string [] 5%N []); (Variant "BadOrigin"%string [] 6%N []); (Variant "InvalidLocation"%string [] 7%N []); (Variant "AssetNotFound"%string [] 8%N []); (Variant "FailedToTransactAsset"%string [] 9%N []); (Variant "NotWithdrawable"%string [] 10%N []); (Variant "LocationCannotHold"%string [] 11%N []); (Variant "ExceedsMaxMessageSize"%string [] 12%N []); (Variant "DestinationUnsupported"%string [] 13%N []); (Variant "Transport"%string [] 14%N []); (Variant "Unroutable"%string [] 15%N []); (Variant "UnknownClaim"%string [] 16%N []); (Variant "FailedToDecode"%string [] 17%N []); (Variant "MaxWeightInvalid"%string [] 18%N []); (Variant "NotHoldingFees"%string [] 19%N []); (Variant "TooExpensive"%string [] 20%N []); (Variant "Trap"%string [(Field None 11%N (Some "u64"%string) [])] 21%N []); (Variant "UnhandledXcmVersion"%string [] 22%N []); (Variant "WeightLimitReached"%string [(Field None 11%N (Some "Weight"%string) [])] 23%N []); (Variant "Barrier"%string [] 24%N []); (Variant "WeightNotComputable"%string [] 25%N [])]) []).
Definition md_t276 : ty := (Ty ["xcm"%string; "v3"%string; "Response"%string] [] (TVariant [(Variant "Null"%string [] 0%N []); (Variant "Assets"%string [(Field None 109%N (Some "MultiAssets"%string) [])] 1%N []); (Variant "ExecutionResult"%string [(Field None 79%N (Some "Option<(u32, Error)>"%string) [])] 2%N []); (Variant "Version"%string [(Field None 4%N (Some "super::Version"%string) [])] 3%N []); (Variant "PalletsInfo"%string [(Field None 277%N (Some "BoundedVec<PalletInfo, MaxPalletsInfo>"%string) [])] 4%N []); (Variant "DispatchResult"%string [(Field None 85%N (Some "MaybeErrorCode"%string) [])] 5%N [])]) []).
Definition md_t277 : ty := (Ty ["bounded_collections"%string; "bounded_vec"%string; "BoundedVec"%string] [("T"%string,(Some 278%N)); ("S"%string,None)] (TComposite [(Field None 280%N (Some "Vec<T>"%string) [])]) []).
Definition md_t278 : ty := (Ty ["xcm"%string; "v3"%string; "PalletInfo"%string] [] (TComposite [(Field (Some "index"%string) 40%N (Some "u32"%string) []); (Field (Some "name"%string) 279%N (Some "BoundedVec<u8, MaxPalletNameLen>"%string) []); (Field (Some "module_name"%string) 279%N (Some "BoundedVec<u8, MaxPalletNameLen>"%string) []); (Field (Some "major"%string) 40%N (Some "u32"%string) []); (Field (Some "minor"%string) 40%N (Some "u32"%string) []); (Field (Some "patch"%string) 40%N (Some "u32"%string) [])]) []).
Definition md_t279 : ty := (Ty ["bounded_collections"%string; "bounded_vec"%string; "BoundedVec"%string] [("T"%string,(Some 2%N)); ("S"%string,None)] (TComposite [(Field None 13%N (Some "Vec<T>"%string) [])]) []).
Definition md_t280 : ty := (Ty [] [] (TSequence 278%N) []).
Definition md_t281 : ty := (Ty [] [] (TTuple [4%N; 115%N]) []).
Definition md_t282 : ty := (Ty [] [] (TTuple [11%N; 9%N; 4%N]) []).
Definition md_t283 : ty := (Ty ["bounded_collections"%string; "bounded_vec"%string; "BoundedVec"%string] [("T"%string,(Some 284%N)); ("S"%string,None)] (TComposite [(Field None 285%N (Some "Vec<T>"%string) [])]) []).
Definition md_t284 : ty := (Ty [] [] (TTuple [115%N; 4%N]) []).
Definition md_t285 : ty := (Ty [] [] (TSequence 284%N) []).
Definition md_t286 : ty := (Ty ["pallet_xcm"%string; "pallet"%string; "VersionMigrationStage"%string] [] (TVariant [(Variant "MigrateSupportedVersion"%string [] 0%N []); (Variant "MigrateVersionNotifiers"%string [] 1%N []); (Variant "NotifyCurrentTargets"%string [(Field None 287%N (Some "Option<Vec<u8>>"%string) [])] 2%N []); (Variant "MigrateAndNotifyOldTargets"%string [] 3%N [])]) []).
Definition md_t287 : ty := (Ty ["Option"%string] [("T"%string,(Some 13%N))] (TVariant [(Variant "None"%string [] 0%N []); (Variant "Some"%string [(Field None 13%N None [])] 1%N [])]) []).
Definition md_t288 : ty := (Ty [] [] (TTuple [4%N; 0%N; 289%N]) []).
Definition md_t289 : ty := (Ty ["xcm"%string; "VersionedAssetId"%string] [] (TVariant [(Variant "V3"%string [(Field None 112%N (Some "v3::AssetId"%string) [])] 3%N []); (Variant "V4"%string [(Field None 73%N (Some "v4::AssetId"%string) [])] 4%N [])]) []).
Definition md_t290 : ty := (Ty ["pallet_xcm"%string; "pallet"%string; "RemoteLockedFungibleRecord"%string] [("ConsumerIdentifier"%string,(Some 124%N)); ("MaxConsumers"%string,None)] (TComposite [(Field (Some "amount"%string) 6%N (Some "u128"%string) []); (Field (Some "owner"%string) 115%N (Some "VersionedLocation"%string) []); (Field (Some "locker"%string) 115%N (Some "VersionedLocation"%string) []); (Field (Some "consumers"%string) 291%N (Some "BoundedVec<(ConsumerIdentifier, u128), MaxConsumers>"%string) [])]) []).
Definition md_t291 : ty := (Ty ["bounded_collections"%string; "bounded_vec"%string; "BoundedVec"%string] [("T"%string,(Some 292%N)); ("S"%string,None)] (TComposite [(Field None 293%N (Some "Vec<T>"%string) [])]) []).
Definition md_t292 : ty := (Ty [] [] (TTuple [124%N; 6%N]) []).
Definition md_t293 : ty := (Ty [] [] (TSequence 292%N) []).
Definition md_t294 : ty := (Ty ["bounded_collections"%string; "bounded_vec"%string; "BoundedVec"%string] [("T"%string,(Some 295%N)); ("S"%string,None)] (TComposite [(Field None 296%N (Some "Vec<T>"%string) [])]) []).
Definition md_t295 : ty := (Ty [] [] (TTuple [6%N; 115%N]) []).
Definition md_t296 : ty := (Ty [] [] (TSequence 295%N) []).
Definition md_t297 : ty := (Ty ["pallet_xcm"%string; "pallet"%string; "Call"%string] [("T"%string,None)] (TVariant [(Variant "send"%string [(Field (Some "dest"%string) 115%N (Some "Box<VersionedLocation>"%string) []); (Field (Some "message"%string) 298%N (Some "Box<VersionedXcm<()>>"%string) [])] 0%N ["See [`Pallet::send`]."%string]); (Variant "teleport_assets"%string [(Field (Some "dest"%string) 115%N (Some "Box<VersionedLocation>"%string) []); (Field (Some "beneficiary"%string) 115%N (Some "Box<VersionedLocation>"%string) []); (Field (Some "assets"%string) 95%N (Some "Box<VersionedAssets>"%string) []); (Field (Some "fee_asset_item"%string) 4%N (Some "u32"%string) [])] 1%N ["See [`Pallet::teleport_assets`]."%string]); (Variant "reserve_transfer_assets"%string [(Field (Some "dest"%string) 115%N (Some "Box<VersionedLocation>"%string) []); (Field (Some "beneficiary"%string) 115%N (Some "Box<VersionedLocation>"%string) []); (Field (Some "assets"%string) 95%N (Some "Box<VersionedAssets>"%string) []); (Field (Some "fee_asset_item"%string) 4%N (Some "u32"%string) [])] 2%N ["See [`Pallet::reserve_transfer_assets`]."%string]); (Variant "execute"%string [(Field (Some "message"%string) 314%N (Some "Box<VersionedXcm<<T as Config>::RuntimeCall>>"%string) []); (Field (Some "max_weight"%string) 9%N (Some "Weight"%string) [])] 3%N ["See [`Pallet::execute`]."%string]); (Variant "force_xcm_version"%string [(Field (Some "location"%string) 54%N (Some "Box<Location>"%string) []); (Field (Some "version"%string) 4%N (Some "XcmVersion"%string) [])] 4%N ["See [`Pallet::force_xcm_version`]."%string]); (Variant "force_default_xcm_version"%string [(Field (Some "maybe_xcm_version"%string) 134%N (Some "Option<XcmVersion>"%string) [])] 5%N ["See [`Pallet::force_default_xcm_version`]."%string]); (Variant "force_subscribe_version_notify"%string [(Field (Some "location"%string) 115%N (Some "Box<VersionedLocation>"%string) [])] 6%N ["See [`Pallet::force_subscribe_version_notify`]."%string]); (Variant "force_unsubscribe_version_notify"%string [(Field (Some "location"%string) 115%N (Some "Box<VersionedLocation>"%string) [])] 7%N ["See [`Pallet::force_unsubscribe_version_notify`]."%string]); (Variant "limited_reserve_transfer_assets"%string [(Field (Some "dest"%string) 115%N (Some "Box<VersionedLocation>"%string) []); (Field (Some "beneficiary"%string) 115%N (Some "Box<VersionedLocation>"%string) []); (Field (Some "assets"%string) 95%N (Some "Box<VersionedAssets>"%string) []); (Field (Some "fee_asset_item"%string) 4%N (Some "u32"%string) []); (Field (Some "weight_limit"%string) 94%N (Some "WeightLimit"%string) [])] 8%N ["See [`Pallet::limited_reserve_transfer_assets`]."%string]); (Variant "limited_teleport_assets"%string [(Field (Some "dest"%string) 115%N (Some "Box<VersionedLocation>"%string) []); (Field (Some "beneficiary"%string) 115%N (Some "Box<VersionedLocation>"%string) []); (Field (Some "assets"%string) 95%N (Some "Box<VersionedAssets>"%string) []); (Field (Some "fee_asset_item"%string) 4%N (Some "u32"%string) []); (Field (Some "weight_limit"%string) 94%N (Some "WeightLimit"%string) [])] 9%N ["See [`Pallet::limited_teleport_assets`]."%string]); (Variant "force_suspension"%string [(Field (Some "suspended"%string) 30%N (Some "bool"%string) [])] 10%N ["See [`Pallet::force_suspension`]."%string]); (Variant "transfer_assets"%string [(Field (Some "dest"%string) 115%N (Some "Box<VersionedLocation>"%string) []); (Field (Some "beneficiary"%string) 115%N (Some "Box<VersionedLocation>"%string) []); (Field (Some "assets"%string) 95%N (Some "Box<VersionedAssets>"%string) []); (Field (Some "fee_asset_item"%string) 4%N (Some "u32"%string) []); (Field (Some "weight_limit"%string) 94%N (Some "WeightLimit"%string) [])] 11%N ["See [`Pallet::transfer_assets`]."%string]); (Variant "claim_assets"%string [(Field (Some "assets"%string) 95%N (Some "Box<VersionedAssets>"%string) []); (Field (Some "beneficiary"%string) 115%N (Some "Box<VersionedLocation>"%string) [])] 12%N ["See [`Pallet::claim_assets`]."%string])]) ["Contains a variant per dispatchable extrinsic that this pallet has."%string]).
Definition md_t298 : ty := (Ty ["xcm"%string; "VersionedXcm"%string] [("RuntimeCall"%string,None)] (TVariant [(Variant "V2"%string [(Field None 299%N (Some "v2::Xcm<RuntimeCall>"%string) [])] 2%N []); (Variant "V3"%string [(Field None 306%N (Some "v3::Xcm<RuntimeCall>"%string) [])] 3%N []); (Variant "V4"%string [(Field None 67%N (Some "v4::Xcm<RuntimeCall>"%string) [])] 4%N [])]) []).
Definition md_t299 : ty := (Ty ["xcm"%string; "v2"%string; "Xcm"%string] [("RuntimeCall"%string,None)] (TComposite [(Field None 300%N (Some "Vec<Instruction<RuntimeCall>>"%string) [])]) []).
Definition md_t300 : ty := (Ty [] [] (TSequence 301%N) []).
Definition md_t301 : ty := (Ty ["xcm"%string; "v2"%string; "Instruction"%string] [("RuntimeCall"%string,None)] (TVariant [(Variant "WithdrawAsset"%string [(Field None 96%N (Some "MultiAssets"%string) [])] 0%N []); (Variant "ReserveAssetDeposited"%string [(Field None 96%N (Some "MultiAssets"%string) [])] 1%N []); (Variant "ReceiveTeleportedAsset"%string [(Field None 96%N (Some "MultiAssets"%string) [])] 2%N []); (Variant "QueryResponse"%string [(Field (Some "query_id"%string) 10%N (Some "QueryId"%string) []); (Field (Some "response"%string) 272%N (Some "Response"%string) []); (Field (Some "max_weight"%string) 10%N (Some "u64"%string) [])] 3%N []); (Variant "TransferAsset"%string [(Field (Some "assets"%string) 96%N (Some "MultiAssets"%string) []); (Field (Some "beneficiary"%string) 100%N (Some "MultiLocation"%string) [])] 4%N []); (Variant "TransferReserveAsset"%string [(Field (Some "assets"%string) 96%N (Some "MultiAssets"%string) []); (Field (Some "dest"%string) 100%N (Some "MultiLocation"%string) []); (Field (Some "xcm"%string) 299%N (Some "Xcm<()>"%string) [])] 5%N []); (Variant "Transact"%string [(Field (Some "origin_type"%string) 88%N (Some "OriginKind"%string) []); (Field (Some "require_weight_at_most"%string) 10%N (Some "u64"%string) []); (Field (Some "call"%string) 89%N (Some "DoubleEncoded<RuntimeCall>"%string) [])] 6%N []); (Variant "HrmpNewChannelOpenRequest"%string [(Field (Some "sender"%string) 40%N (Some "u32"%string) []); (Field (Some "max_message_size"%string) 40%N (Some "u32"%string) []); (Field (Some "max_capacity"%string) 40%N (Some "u32"%string) [])] 7%N []); (Variant "HrmpChannelAccepted"%string [(Field (Some "recipient"%string) 40%N (Some "u32"%string) [])] 8%N []); (Variant "HrmpChannelClosing"%string [(Field (Some "initiator"%string) 40%N (Some "u32"%string) []); (Field (Some "sender"%string) 40%N (Some "u32"%string) []); (Field (Some "recipient"%string) 40%N (Some "u32"%string) [])] 9%N []); (Variant "ClearOrigin"%string [] 10%N []); (Variant "DescendOrigin"%string [(Field None 101%N (Some "InteriorMultiLocation"%string) [])] 11%N []); (Variant "ReportError"%string [(Field (Some "query_id"%string) 10%N (Some "QueryId"%string) []); (Field (Some "dest"%string) 100%N (Some "MultiLocation"%string) []); (Field (Some "max_response_weight"%string) 10%N (Some "u64"%string) [])] 12%N []); (Variant "DepositAsset"%string [(Field (Some "assets"%string) 302%N (Some "MultiAssetFilter"%string) []); (Field (Some "max_assets"%string) 40%N (Some "u32"%string) []); (Field (Some "beneficiary"%string) 100%N (Some "MultiLocation"%string) [])] 13%N []); (Variant "DepositReserveAsset"%string [(Field (Some "assets"%string) 302%N (Some "MultiAssetFilter"%string) []); (Field (Some "max_assets"%string) 40%N (Some "u32"%string) []); (Field (Some "dest"%string) 100%N (Some "MultiLocation"%string) []); (Field (Some "xcm"%string) 299%N (Some "Xcm<()>"%string) [])] 14%N []); (Variant "ExchangeAsset"%string [(Field (Some "give"%string) 302%N (Some "MultiAssetFilter"%string) []); (Field (Some "receive"%string) 96%N (Some "MultiAssets"%string) [])] 15%N []); (Variant "InitiateReserveWithdraw"%string [(Field (Some "assets"%string) 302%N (Some "MultiAssetFilter"%string) []); (Field (Some "reserve"%string) 100%N (Some "MultiLocation"%string) []); (Field (Some "xcm"%string) 299%N (Some "Xcm<()>"%string) [])] 16%N []); (Variant "InitiateTeleport"%string [(Field (Some "assets"%string) 302%N (Some "MultiAssetFilter"%string) []); (Field (Some "dest"%string) 100%N (Some "MultiLocation"%string) []); (Field (Some "xcm"%string) 299%N (Some "Xcm<()>"%string) [])] 17%N []); (Variant "QueryHolding"%string [(Field (Some "query_id"%string) 10%N (Some "QueryId"%string) []); (Field (Some "dest"%string) 100%N (Some "MultiLocation"%string) []); (Field (Some "assets"%string) 302%N (Some "MultiAssetFilter"%string) []); (Field (Some "max_response_weight"%string) 10%N (Some "u64"%string) [])] 18%N []); (Variant "BuyExecution"%string [(Field (Some "fees"%string) 98%N (Some "MultiAsset"%string) []); (Field (Some "weight_limit"%string) 305%N (Some "WeightLimit"%string) [])] 19%N []); (Variant "RefundSurplus"%string [] 20%N []); (Variant "SetErrorHandler"%string [(Field None 299%N (Some "Xcm<RuntimeCall>"%string) [])] 21%N []); (Variant "SetAppendix"%string [(Field None 299%N (Some "Xcm<RuntimeCall>"%string) [])] 22%N []); (Variant "ClearError"%string [] 23%N []); (Variant "ClaimAsset"%string [(Field (Some "assets"%string) 96%N (Some "MultiAssets"%string) []); (Field (Some "ticket"%string) 100%N (Some "MultiLocation"%string) [])] 24%N []); (Variant "Trap"%string [(Field None 10%N (Some "u64"%string) [])] 25%N []); (Variant "SubscribeVersion"%string [(Field (Some "query_id"%string) 10%N (Some "QueryId"%string) []); (Field (Some "max_response_weight"%string) 10%N (Some "u64"%string) [])] 26%N []); (Variant "UnsubscribeVersion"%string [] 27%N [])]) []).
Definition md_t302 : ty := (Ty ["xcm"%string; "v2"%string; "multiasset"%string; "MultiAssetFilter"%string] [] (TVariant [(Variant "Definite"%string [(Field None 96%N (Some "MultiAssets"%string) [])] 0%N []); (Variant "Wild"%string [(Field None 303%N (Some "WildMultiAsset"%string) [])] 1%N [])]) []).
Definition md_t303 : ty := (Ty ["xcm"%string; "v2"%string; "multiasset"%string; "WildMultiAsset"%string] [] (TVariant [(Variant "All"%string [] 0%N []); (Variant "AllOf"%string [(Field (Some "id"%string) 99%N (Some "AssetId"%string) []); (Field (Some "fun"%string) 304%N (Some "WildFungibility"%string) [])] 1%N [])]) []).
Definition md_t304 : ty := (Ty ["xcm"%string; "v2"%string; "multiasset"%string; "WildFungibility"%string] [] (TVariant [(Variant "Fungible"%string [] 0%N []); (Variant "NonFungible"%string [] 1%N [])]) []).
Definition md_t305 : ty := (Ty ["xcm"%string; "v2"%string; "WeightLimit"%string] [] (TVariant [(Variant "Unlimited"%string [] 0%N []); (Variant "Limited"%string [(Field None 10%N (Some "u64"%string) [])] 1%N [])]) []).
Definition md_t306 : ty := (Ty ["xcm"%string; "v3"%string; "Xcm"%string] [("Call"%string,None)] (TComposite [(Field None 307%N (Some "Vec<Instruction<Call>>"%string) [])]) []).
Definition md_t307 : ty := (Ty [] [] (TSequence 308%N) []).
Definition md_t308 : ty := (Ty ["xcm"%string; "v3"%string; "Instruction"%string] [("Call"%string,None)] (TVariant [(Variant "WithdrawAsset"%string [(Field None 109%N (Some "MultiAssets"%string) [])] 0%N []); (Variant "ReserveAssetDeposited"%string [(Field None 109%N (Some "MultiAssets"%string) [])] 1%N []); (Variant "ReceiveTeleportedAsset"%string [(Field None 109%N (Some "MultiAssets"%string) [])] 2%N []); (Variant "QueryResponse"%string [(Field (Some "query_id"%string) 10%N (Some "QueryId"%string) []); (Field (Some "response"%string) 276%N (Some "Response"%string) []); (Field (Some "max_weight"%string) 9%N (Some "Weight"%string) []); (Field (Some "querier"%string) 309%N (Some "Option<MultiLocation>"%string) [])] 3%N []); (Variant "TransferAsset"%string [(Field (Some "assets"%string) 109%N (Some "MultiAssets"%string) []); (Field (Some "beneficiary"%string) 37%N (Some "MultiLocation"%string) [])] 4%N []); (Variant "TransferReserveAsset"%string [(Field (Some "assets"%string) 109%N (Some "MultiAssets"%string) []); (Field (Some "dest"%string) 37%N (Some "MultiLocation"%string) []); (Field (Some "xcm"%string) 306%N (Some "Xcm<()>"%string) [])] 5%N []); (Variant "Transact"%string [(Field (Some "origin_kind"%string) 88%N (Some "OriginKind"%string) []); (Field (Some "require_weight_at_most"%string) 9%N (Some "Weight"%string) []); (Field (Some "call"%string) 89%N (Some "DoubleEncoded<Call>"%string) [])] 6%N []); (Variant "HrmpNewChannelOpenRequest"%string [(Field (Some "sender"%string) 40%N (Some "u32"%string) []); (Field (Some "max_message_size"%string) 40%N (Some "u32"%string) []); (Field (Some "max_capacity"%string) 40%N (Some "u32"%string) [])] 7%N []); (Variant "HrmpChannelAccepted"%string [(Field (Some "recipient"%string) 40%N (Some "u32"%string) [])] 8%N []); (Variant "HrmpChannelClosing"%string [(Field (Some "initiator"%string) 40%N (Some "u32"%string) []); (Field (Some "sender"%string) 40%N (Some "u32"%string) []); (Field (Some "recipient"%string) 40%N (Some "u32"%string) [])] 9%N []); (Variant "ClearOrigin"%string [] 10%N []); (Variant "DescendOrigin"%string [(Field None 38%N (Some "InteriorMultiLocation"%string) [])] 11%N []); (Variant "ReportError"%string [(Field None 310%N (Some "QueryResponseInfo"%string) [])] 12%N []); (Variant "DepositAsset"%string [(Field (Some "assets"%string) 311%N (Some "MultiAssetFilter"%string) []); (Field (Some "beneficiary"%string) 37%N (Some "MultiLocation"%string) [])] 13%N []); (Variant "DepositReserveAsset"%string [(Field (Some "assets"%string) 311%N (Some "MultiAssetFilter"%string) []); (Field (Some "dest"%string) 37%N (Some "MultiLocation"%string) []); (Field (Some "xcm"%string) 306%N (Some "Xcm<()>"%string) [])] 14%N []); (Variant "ExchangeAsset"%string [(Field (Some "give"%string) 311%N (Some "MultiAssetFilter"%string) []); (Field (Some "want"%string) 109%N (Some "MultiAssets"%string) []); (Field (Some "maximal"%string) 30%N (Some "bool"%string) [])] 15%N []); (Variant "InitiateReserveWithdraw"%string [(Field (Some "assets"%string) 311%N (Some "MultiAssetFilter"%string) []); (Field (Some "reserve"%string) 37%N (Some "MultiLocation"%string) []); (Field (Some "xcm"%string) 306%N (Some "Xcm<()>"%string) [])] 16%N []); (Variant "InitiateTeleport"%string [(Field (Some "assets"%string) 311%N (Some "MultiAssetFilter"%string) []); (Field (Some "dest"%string) 37%N (Some "MultiLocation"%string) []); (Field (Some "xcm"%string) 306%N (Some "Xcm<()>"%string) [])] 17%N []); (Variant "ReportHolding"%string [(Field (Some "response_info"%string) 310%N (Some "QueryResponseInfo"%string) []); (Field (Some "assets"%string) 311%N (Some "MultiAssetFilter"%string) [])] 18%N []); (Variant "BuyExecution"%string [(Field (Some "fees"%string) 111%N (Some "MultiAsset"%string) []); (Field (Some "weight_limit"%string) 94%N (Some "WeightLimit"%string) [])] 19%N []); (Variant "RefundSurplus"%string [] 20%N []); (Variant "SetErrorHandler"%string [(Field None 306%N (Some "Xcm<Call>"%string) [])] 21%N []); (Variant "SetAppendix"%string [(Field None 306%N (Some "Xcm<Call>"%string) [])] 22%N []); (Variant "ClearError"%string [] 23%N []); (Variant "ClaimAsset"%string [(Field (Some "assets"%string) 109%N (Some "MultiAssets"%string) []); (Field (Some "ticket"%string) 37%N (Some "MultiLocation"%string) [])] 24%N []); (Variant "Trap"%string [(Field None 10%N (Some "u64"%string) [])] 25%N []); (Variant "SubscribeVersion"%string [(Field (Some "query_id"%string) 10%N (Some "QueryId"%string) []); (Field (Some "max_response_weight"%string) 9%N (Some "Weight"%string) [])] 26%N []); (Variant "UnsubscribeVersion"%string [] 27%N []); (Variant "BurnAsset"%string [(Field None 109%N (Some "MultiAssets"%string) [])] 28%N []); (Variant "ExpectAsset"%string [(Field None 109%N (Some "MultiAssets"%string) [])] 29%N []); (Variant "ExpectOrigin"%string [(Field None 309%N (Some "Option<MultiLocation>"%string) [])] 30%N []); (Variant "ExpectError"%string [(Field None 79%N (Some "Option<(u32, Error)>"%string) [])] 31%N []); (Variant "ExpectTransactStatus"%string [(Field None 85%N (Some "MaybeErrorCode"%string) [])] 32%N []); (Variant "QueryPallet"%string [(Field (Some "module_name"%string) 13%N (Some "Vec<u8>"%string) []); (Field (Some "response_info"%string) 310%N (Some "QueryResponseInfo"%string) [])] 33%N []); (Variant "ExpectPallet"%string [(Field (Some "index"%string) 40%N (Some "u32"%string) []); (Field (Some "name"%string) 13%N (Some "Vec<u8>"%string) []); (Field (Some "module_name"%string) 13%N (Some "Vec<u8>"%string) []); (Field (Some "crate_major"%string) 40%N (Some "u32"%string) []); (Field (Some "min_crate_minor"%string) 40%N (Some "u32"%string) [])] 34%N []); (Variant "ReportTransactStatus"%string [(Field None 310%N (Some "QueryResponseInfo"%string) [])] 35%N []); (Variant "ClearTransactStatus"%string [] 36%N []); (Variant "UniversalOrigin"%string [(Field None 39%N (Some "Junction"%string) [])] 37%N []); (Variant "ExportMessage"%string [(Field (Some "network"%string) 42%N (Some "NetworkId"%string) []); (Field (Some "destination"%string) 38%N (Some "InteriorMultiLocation"%string) []); (Field (Some "xcm"%string) 306%N (Some "Xcm<()>"%string) [])] 38%N []); (Variant "LockAsset"%string [(Field (Some "asset"%string) 111%N (Some "MultiAsset"%string) []); (Field (Some "unlocker"%string) 37%N (Some "MultiLocation"%string) [])] 39%N []); (Variant "UnlockAsset"%string [(Field (Some "asset"%string) 111%N (Some "MultiAsset"%string) []); (Field (Some "target"%string) 37%N (Some "MultiLocation"%string) [])] 40%N []); (Variant "NoteUnlockable"%string [(Field (Some "asset"%string) 111%N (Some "MultiAsset"%string) []); (Field (Some "owner"%string) 37%N (Some "MultiLocation"%string) [])] 41%N []); (Variant "RequestUnlock"%string [(Field (Some "asset"%string) 111%N (Some "MultiAsset"%string) []); (Field (Some "locker"%string) 37%N (Some "MultiLocation"%string) [])] 42%N []); (Variant "SetFeesMode"%string [(Field (Some "jit_withdraw"%string) 30%N (Some "bool"%string) [])] 43%N []); (Variant "SetTopic"%string [(Field None 1%N (Some "[u8; 32]"%string) [])] 44%N []); (Variant "ClearTopic"%string [] 45%N []); (Variant "AliasOrigin"%string [(Field None 37%N (Some "MultiLocation"%string) [])] 46%N []); (Variant "UnpaidExecution"%string [(Field (Some "weight_limit"%string) 94%N (Some "WeightLimit"%string) []); (Field (Some "check_origin"%string) 309%N (Some "Option<MultiLocation>"%string) [])] 47%N [])]) []).
Definition md_t309 : ty := (Ty ["Option"%string] [("T"%string,(Some 37%N))] (TVariant [(Variant "None"%string [] 0%N []); (Variant "Some"%string [(Field None 37%N None [])] 1%N [])]) []).
Definition md_t310 : ty := (Ty ["xcm"%string; "v3"%string; "QueryResponseInfo"%string] [] (TComposite [(Field (Some "destination"%string) 37%N (Some "MultiLocation"%string) []); (Field (Some "query_id"%string) 10%N (Some "QueryId"%string) []); (Field (Some "max_weight"%string) 9%N (Some "Weight"%string) [])]) []).
Definition md_t311 : ty := (Ty ["xcm"%string; "v3"%string; "multiasset"%string; "MultiAssetFilter"%string] [] (TVariant [(Variant "Definite"%string [(Field None 109%N (Some "MultiAssets"%string) [])] 0%N []); (Variant "Wild"%string [(Field None 312%N (Some "WildMultiAsset"%string) [])] 1%N [])]) []).
Definition md_t312 : ty := (Ty ["xcm"%string; "v3"%string; "multiasset"%string; "WildMultiAsset"%string] [] (TVariant [(Variant "All"%string [] 0%N []); (Variant "AllOf"%string [(Field (Some "id"%string) 112%N (Some "AssetId"%string) []); (Field (Some "fun"%string) 313%N (Some "WildFungibility"%string) [])] 1%N []); (Variant "AllCounted"%string [(Field None 40%N (Some "u32"%string) [])] 2%N []); (Variant "AllOfCounted"%string [(Field (Some "id"%string) 112%N (Some "AssetId"%string) []); (Field (Some "fun"%string) 313%N (Some "WildFungibility"%string) []); (Field (Some "count"%string) 40%N (Some "u32"%string) [])] 3%N [])]) []).
Definition md_t313 : ty := (Ty ["xcm"%string; "v3"%string; "multiasset"%string; "WildFungibility"%string] [] (TVariant [(Variant "Fungible"%string [] 0%N []); (Variant "NonFungible"%string [] 1%N [])]) []).
Definition md_t314 : ty := (Ty ["xcm"%string; "VersionedXcm"%string] [("RuntimeCall"%string,None)] (TVariant [(Variant "V2"%string [(Field None 315%N (Some "v2::Xcm<RuntimeCall>"%string) [])] 2%N []); (Variant "V3"%string [(Field None 319%N (Some "v3::Xcm<RuntimeCall>"%string) [])] 3%N []); (Variant "V4"%string [(Field None 322%N (Some "v4::Xcm<RuntimeCall>"%string) [])] 4%N [])]) []).
Definition md_t315 : ty := (Ty ["xcm"%string; "v2"%string; "Xcm"%string] [("RuntimeCall"%string,None)] (TComposite [(Field None 316%N (Some "Vec<Instruction<RuntimeCall>>"%string) [])]) []).
Definition md_t316 : ty := (Ty [] [] (TSequence 317%N) []).
Definition md_t317 : ty := (Ty ["xcm"%string; "v2"%string; "Instruction"%string] [("RuntimeCall"%string,None)] (TVariant [(Variant "WithdrawAsset"%string [(Field None 96%N (Some "MultiAssets"%string) [])] 0%N []); (Variant "ReserveAssetDeposited"%string [(Field None 96%N (Some "MultiAssets"%string) [])] 1%N []); (Variant "ReceiveTeleportedAsset"%string [(Field None 96%N (Some "MultiAssets"%string) [])] 2%N []); (Variant "QueryResponse"%string [(Field (Some "query_id"%string) 10%N (Some "QueryId"%string) []); (Field (Some "response"%string) 272%N (Some "Response"%string) []); (Field (Some "max_weight"%string) 10%N (Some "u64"%string) [])] 3%N []); (Variant "TransferAsset"%string [(Field (Some "assets"%string) 96%N (Some "MultiAssets"%string) []); (Field (Some "beneficiary"%string) 100%N (Some "MultiLocation"%string) [])] 4%N []); (Variant "TransferReserveAsset"%string [(Field (Some "assets"%string) 96%N (Some "MultiAssets"%string) []); (Field (Some "dest"%string) 100%N (Some "MultiLocation"%string) []); (Field (Some "xcm"%string) 299%N (Some "Xcm<()>"%string) [])] 5%N []); (Variant "Transact"%string [(Field (Some "origin_type"%string) 88%N (Some "OriginKind"%string) []); (Field (Some "require_weight_at_most"%string) 10%N (Some "u64"%string) []); (Field (Some "call"%string) 318%N (Some "DoubleEncoded<RuntimeCall>"%string) [])] 6%N []); (Variant "HrmpNewChannelOpenRequest"%string [(Field (Some "sender"%string) 40%N (Some "u32"%string) []); (Field (Some "max_message_size"%string) 40%N (Some "u32"%string) []); (Field (Some "max_capacity"%string) 40%N (Some "u32"%string) [])] 7%N []); (Variant "HrmpChannelAccepted"%string [(Field (Some "recipient"%string) 40%N (Some "u32"%string) [])] 8%N []); (Variant "HrmpChannelClosing"%string [(Field (Some "initiator"%string) 40%N (Some "u32"%string) []); (Field (Some "sender"%string) 40%N (Some "u32"%string) []); (Field (Some "recipient"%string) 40%N (Some "u32"%string) [])] 9%N []); (Variant "ClearOrigin"%string [] 10%N []); (Variant "DescendOrigin"%string [(Field None 101%N (Some "InteriorMultiLocation"%string) [])] 11%N []); (Variant "ReportError"%string [(Field (Some "query_id"%string) 10%N (Some "QueryId"%string) []); (Field (Some "dest"%string) 100%N (Some "MultiLocation"%string) []); (Field (Some "max_response_weight"%string) 10%N (Some "u64"%string) [])] 12%N []); (Variant "DepositAsset"%string [(Field (Some "assets"%string) 302%N (Some "MultiAssetFilter"%string) []); (Field (Some "max_assets"%string) 40%N (Some "u32"%string) []); (Field (Some "beneficiary"%string) 100%N (Some "MultiLocation"%string) [])] 13%N []); (Variant "DepositReserveAsset"%string [(Field (Some "assets"%string) 302%N (Some "MultiAssetFilter"%string) []); (Field (Some "max_assets"%string) 40%N (Some "u32"%string) []); (Field (Some "dest"%string) 100%N (Some "MultiLocation"%string) []); (Field (Some "xcm"%string) 299%N (Some "Xcm<()>"%string) [])] 14%N []); (Variant "ExchangeAsset"%string [(Field (Some "give"%string) 302%N (Some "MultiAssetFilter"%string) []); (Field (Some "receive"%string) 96%N (Some "MultiAssets"%string) [])] 15%N []); (Variant "InitiateReserveWithdraw"%string [(Field (Some "assets"%string) 302%N (Some "MultiAssetFilter"%string) []); (Field (Some "reserve"%string) 100%N (Some "MultiLocation"%string) []); (Field (Some "xcm"%string) 299%N (Some "Xcm<()>"%string) [])] 16%N []); (Variant "InitiateTeleport"%string [(Field (Some "assets"%string) 302%N (Some "MultiAssetFilter"%string) []); (Field (Some "dest"%string) 100%N (Some "MultiLocation"%string) []); (Field (Some "xcm"%string) 299%N (Some "Xcm<()>"%string) [])] 17%N []); (Variant "QueryHolding"%string [(Field (Some "query_id"%string) 10%N (Some "QueryId"%string) []); (Field (Some "dest"%string) 100%N (Some "MultiLocation"%string) []); (Field (Some "assets"%string) 302%N (Some "MultiAssetFilter"%string) []); (Field (Some "max_response_weight"%string) 10%N (Some "u64"%string) [])] 18%N []); (Variant "BuyExecution"%string [(Field (Some "fees"%string) 98%N (Some "MultiAsset"%string) []); (Field (Some "weight_limit"%string) 305%N (Some "WeightLimit"%string) [])] 19%N []); (Variant "RefundSurplus"%string [] 20%N []); (Variant "SetErrorHandler"%string [(Field None 315%N (Some "Xcm<RuntimeCall>"%string) [])] 21%N []); (Variant "SetAppendix"%string [(Field None 315%N (Some "Xcm<RuntimeCall>"%string) [])] 22%N []); (Variant "ClearError"%string [] 23%N []); (Variant "ClaimAsset"%string [(Field (Some "assets"%string) 96%N (Some "MultiAssets"%string) []); (Field (Some "ticket"%string) 100%N (Some "MultiLocation"%string) [])] 24%N []); (Variant "Trap"%string [(Field None 10%N (Some "u64"%string) [])] 25%N []); (Variant "SubscribeVersion"%string [(Field (Some "query_id"%string) 10%N (Some "QueryId"%string) []); (Field (Some "max_response_weight"%string) 10%N (Some "u64"%string) [])] 26%N []); (Variant "UnsubscribeVersion"%string [] 27%N [])]) []).
Definition md_t318 : ty := (Ty ["xcm"%string; "double_encoded"%string; "DoubleEncoded"%string] [("T"%string,None)] (TComposite [(Field (Some "encoded"%string) 13%N (Some "Vec<u8>"%string) [])]) []).
Definition md_t319 : ty := (Ty ["xcm"%string; "v3"%string; "Xcm"%string] [("Call"%string,None)] (TComposite [(Field None 320%N (Some "Vec<Instruction<Call>>"%string) [])]) []).
Definition md_t320 : ty := (Ty [] [] (TSequence 321%N) []).
Definition md_t321 : ty := (Ty ["xcm"%string; "v3"%string; "Instruction"%string] [("Call"%string,None)] (TVariant [(Variant "WithdrawAsset"%string [(Field None 109%N (Some "MultiAssets"%string) [])] 0%N []); (Variant "ReserveAssetDeposited"%string [(Field None 109%N (Some "MultiAssets"%string) [])] 1%N []); (Variant "ReceiveTeleportedAsset"%string [(Field None 109%N (Some "MultiAssets"%string) [])] 2%N []); (Variant "QueryResponse"%string [(Field (Some "query_id"%string) 10%N (Some "QueryId"%string) []); (Field (Some "response"%string) 276%N (Some "Response"%string) []); (Field (Some "max_weight"%string) 9%N (Some "Weight"%string) []); (Field (Some "querier"%string) 309%N (Some "Option<MultiLocation>"%string) [])] 3%N []); (Variant "TransferAsset"%string [(Field (Some "assets"%string) 109%N (Some "MultiAssets"%string) []); (Field (Some "beneficiary"%string) 37%N (Some "MultiLocation"%string) [])] 4%N []); (Variant "TransferReserveAsset"%string [(Field (Some "assets"%string) 109%N (Some "MultiAssets"%string) []); (Field (Some "dest"%string) 37%N (Some "MultiLocation"%string) []); (Field (Some "xcm"%string) 306%N (Some "Xcm<()>"%string) [])] 5%N []); (Variant "Transact"%string [(Field (Some "origin_kind"%string) 88%N (Some "OriginKind"%string) []); (Field (Some "require_weight_at_most"%string) 9%N (Some "Weight"%string) []); (Field (Some "call"%string) 318%N (Some "DoubleEncoded<Call>"%string) [])] 6%N []); (Variant "HrmpNewChannelOpenRequest"%string [(Field (Some "sender"%string) 40%N (Some "u32"%string) []); (Field (Some "max_message_size"%string) 40%N (Some "u32"%string) []); (Field (Some "max_capacity"%string) 40%N (Some "u32"%string) [])] 7%N []); (Variant "HrmpChannelAccepted"%string [(Field (Some "recipient"%string) 40%N (Some "u32"%string) [])] 8%N []); (Variant "HrmpChannelClosing"%string [(Field (Some "initiator"%string) 40%N (Some "u32"%string) []); (Field (Some "sender"%string) 40%N (Some "u32"%string) []); (Field (Some "recipient"%string) 40%N (Some "u32"%string) [])] 9%N []); (Variant "ClearOrigin"%string [] 10%N []); (Variant "DescendOrigin"%string [(Field None 38%N (Some "InteriorMultiLocation"%string) [])] 11%N []); (Variant "ReportError"%string [(Field None 310%N (Some "QueryResponseInfo"%string) [])] 12%N []); (Variant "DepositAsset"%string [(Field (Some "assets"%string) 311%N (Some "MultiAssetFilter"%string) []); (Field (Some "beneficiary"%string) 37%N (Some "MultiLocation"%string) [])] 13%N []); (Variant "DepositReserveAsset"%string [(Field (Some "assets"%string) 311%N (Some "MultiAssetFilter"%string) []); (Field (Some "dest"%string) 37%N (Some "MultiLocation"%string) []); (Field (Some "xcm"%string) 306%N (Some "Xcm<()>"%string) [])] 14%N []); (Variant "ExchangeAsset"%string [(Field (Some "give"%string) 311%N (Some "MultiAssetFilter"%string) []); (Field (Some "want"%string) 109%N (Some "MultiAssets"%string) []); (Field (Some "maximal"%string) 30%N (Some "bool"%string) [])] 15%N []); (Variant "InitiateReserveWithdraw"%string [(Field (Some "assets"%string) 311%N (Some "MultiAssetFilter"%string) []); (Field (Some "reserve"%string) 37%N (Some "MultiLocation"%string) []); (Field (Some "xcm"%string) 306%N (Some "Xcm<()>"%string) [])] 16%N []); (Variant "InitiateTeleport"%string [(Field (Some "assets"%string) 311%N (Some "MultiAssetFilter"%string) []); (Field (Some "dest"%string) 37%N (Some "MultiLocation"%string) []); (Field (Some "xcm"%string) 306%N (Some "Xcm<()>"%string) [])] 17%N []); (Variant "ReportHolding"%string [(Field (Some "response_info"%string) 310%N (Some "QueryResponseInfo"%string) []); (Field (Some "assets"%string) 311%N (Some "MultiAssetFilter"%string) [])] 18%N []); (Variant "BuyExecution"%string [(Field (Some "fees"%string) 111%N (Some "MultiAsset"%string) []); (Field (Some "weight_limit"%string) 94%N (Some "WeightLimit"%string) [])] 19%N []); (Variant "RefundSurplus"%string [] 20%N []); (Variant "SetErrorHandler"%string [(Field None 319%N (Some "Xcm<Call>"%string) [])] 21%N []); (Variant "SetAppendix"%string [(Field None 319%N (Some "Xcm<Call>"%string) [])] 22%N []); (Variant "ClearError"%string [] 23%N []); (Variant "ClaimAsset"%string [(Field (Some "assets"%string) 109%N (Some "MultiAssets"%string) []); (Field (Some "ticket"%string) 37%N (Some "MultiLocation"%string) [])] 24%N []); (Variant "Trap"%string [(Field None 10%N (Some "u64"%string) [])] 25%N []); (Variant "SubscribeVersion"%string [(Field (Some "query_id"%string) 10%N (Some "QueryId"%string) []); (Field (Some "max_response_weight"%string) 9%N (Some "Weight"%string) [])] 26%N []); (Variant "UnsubscribeVersion"%string [] 27%N []); (Variant "BurnAsset"%string [(Field None 109%N (Some "MultiAssets"%string) [])] 28%N []); (Variant "ExpectAsset"%string [(Field None 109%N (Some "MultiAssets"%string) [])] 29%N []); (Variant "ExpectOrigin"%string [(Field None 309%N (Some "Option<MultiLocation>"%string) [])] 30%N []); (Variant "ExpectError"%string [(Field None 79%N (Some "Option<(u32, Error)>"%string) [])] 31%N []); (Variant "ExpectTransactStatus"%string [(Field None 85%N (Some "MaybeErrorCode"%string) [])] 32%N []); (Variant "QueryPallet"%string [(Field (Some "module_name"%string) 13%N (Some "Vec<u8>"%string) []); (Field (Some "response_info"%string) 310%N (Some "QueryResponseInfo"%string) [])] 33%N []); (Variant "ExpectPallet"%string [(Field (Some "index"%string) 40%N (Some "u32"%string) []); (Field (Some "name"%string) 13%N (Some "Vec<u8>"%string) []); (Field (Some "module_name"%string) 13%N (Some "Vec<u8>"%string) []); (Field (Some "crate_major"%string) 40%N (Some "u32"%string) []); (Field (Some "min_crate_minor"%string) 40%N (Some "u32"%string) [])] 34%N []); (Variant "ReportTransactStatus"%string [(Field None 310%N (Some "QueryResponseInfo"%string) [])] 35%N []); (Variant "ClearTransactStatus"%string [] 36%N []); (Variant "UniversalOrigin"%string [(Field None 39%N (Some "Junction"%string) [])] 37%N []); (Variant "ExportMessage"%string [(Field (Some "network"%string) 42%N (Some "NetworkId"%string) []); (Field (Some "destination"%string) 38%N (Some "InteriorMultiLocation"%string) []); (Field (Some "xcm"%string) 306%N (Some "Xcm<()>"%string) [])] 38%N []); (Variant "LockAsset"%string [(Field (Some "asset"%string) 111%N (Some "MultiAsset"%string) []); (Field (Some "unlocker"%string) 37%N (Some "MultiLocation"%string) [])] 39%N []); (Variant "UnlockAsset"%string [(Field (Some "asset"%string) 111%N (Some "MultiAsset"%string) []); (Field (Some "target"%string) 37%N (Some "MultiLocation"%string) [])] 40%N []); (Variant "NoteUnlockable"%string [(Field (Some "asset"%string) 111%N (Some "MultiAsset"%string) []); (Field (Some "owner"%string) 37%N (Some "MultiLocation"%string) [])] 41%N []); (Variant "RequestUnlock"%string [(Field (Some "asset"%string) 111%N (Some "MultiAsset"%string) []); (Field (Some "locker"%string) 37%N (Some "MultiLocation"%string) [])] 42%N []); (Variant "SetFeesMode"%string [(Field (Some "jit_withdraw"%string) 30%N (Some "bool"%string) [])] 43%N []); (Variant "SetTopic"%string [(Field None 1%N (Some "[u8; 32]"%string) [])] 44%N []); (Variant "ClearTopic"%string [] 45%N []); (Variant "AliasOrigin"%string [(Field None 37%N (Some "MultiLocation"%string) [])] 46%N []); (Variant "UnpaidExecution"%string [(Field (Some "weight_limit"%string) 94%N (Some "WeightLimit"%string) []); (Field (Some "check_origin"%string) 309%N (Some "Option<MultiLocation>"%string) [])] 47%N [])]) []).
Definition md_t322 : ty := (Ty ["staging_xcm"%string; "v4"%string; "Xcm"%string] [("Call"%string,None)] (TComposite [(Field None 323%N (Some "Vec<Instruction<Call>>"%string) [])]) []).
Definition md_t323 : ty := (Ty [] [] (TSequence 324%N) []).
Definition md_t324 : ty := (Ty ["staging_xcm"%string; "v4"%string; "Instruction"%string] [("Call"%string,None)] (TVariant [(Variant "WithdrawAsset"%string [(Field None 70%N (Some "Assets"%string) [])] 0%N []); (Variant "ReserveAssetDeposited"%string [(Field None 70%N (Some "Assets"%string) [])] 1%N []); (Variant "ReceiveTeleportedAsset"%string [(Field None 70%N (Some "Assets"%string) [])] 2%N []); (Variant "QueryResponse"%string [(Field (Some "query_id"%string) 10%N (Some "QueryId"%string) []); (Field (Some "response"%string) 78%N (Some "Response"%string) []); (Field (Some "max_weight"%string) 9%N (Some "Weight"%string) []); (Field (Some "querier"%string) 87%N (Some "Option<Location>"%string) [])] 3%N []); (Variant "TransferAsset"%string [(Field (Some "assets"%string) 70%N (Some "Assets"%string) []); (Field (Some "beneficiary"%string) 54%N (Some "Location"%string) [])] 4%N []); (Variant "TransferReserveAsset"%string [(Field (Some "assets"%string) 70%N (Some "Assets"%string) []); (Field (Some "dest"%string) 54%N (Some "Location"%string) []); (Field (Some "xcm"%string) 67%N (Some "Xcm<()>"%string) [])] 5%N []); (Variant "Transact"%string [(Field (Some "origin_kind"%string) 88%N (Some "OriginKind"%string) []); (Field (Some "require_weight_at_most"%string) 9%N (Some "Weight"%string) []); (Field (Some "call"%string) 318%N (Some "DoubleEncoded<Call>"%string) [])] 6%N []); (Variant "HrmpNewChannelOpenRequest"%string [(Field (Some "sender"%string) 40%N (Some "u32"%string) []); (Field (Some "max_message_size"%string) 40%N (Some "u32"%string) []); (Field (Some "max_capacity"%string) 40%N (Some "u32"%string) [])] 7%N []); (Variant "HrmpChannelAccepted"%string [(Field (Some "recipient"%string) 40%N (Some "u32"%string) [])] 8%N []); (Variant "HrmpChannelClosing"%string [(Field (Some "initiator"%string) 40%N (Some "u32"%string) []); (Field (Some "sender"%string) 40%N (Some "u32"%string) []); (Field (Some "recipient"%string) 40%N (Some "u32"%string) [])] 9%N []); (Variant "ClearOrigin"%string [] 10%N []); (Variant "DescendOrigin"%string [(Field None 55%N (Some "InteriorLocation"%string) [])] 11%N []); (Variant "ReportError"%string [(Field None 90%N (Some "QueryResponseInfo"%string) [])] 12%N []); (Variant "DepositAsset"%string [(Field (Some "assets"%string) 91%N (Some "AssetFilter"%string) []); (Field (Some "beneficiary"%string) 54%N (Some "Location"%string) [])] 13%N []); (Variant "DepositReserveAsset"%string [(Field (Some "assets"%string) 91%N (Some "AssetFilter"%string) []); (Field (Some "dest"%string) 54%N (Some "Location"%string) []); (Field (Some "xcm"%string) 67%N (Some "Xcm<()>"%string) [])] 14%N []); (Variant "ExchangeAsset"%string [(Field (Some "give"%string) 91%N (Some "AssetFilter"%string) []); (Field (Some "want"%string) 70%N (Some "Assets"%string) []); (Field (Some "maximal"%string) 30%N (Some "bool"%string) [])] 15%N []); (Variant "InitiateReserveWithdraw"%string [(Field (Some "assets"%string) 91%N (Some "AssetFilter"%string) []); (Field (Some "reserve"%string) 54%N (Some "Location"%string) []); (Field (Some "xcm"%string) 67%N (Some "Xcm<()>"%string) [])] 16%N []); (Variant "InitiateTeleport"%string [(Field (Some "assets"%string) 91%N (Some "AssetFilter"%string) []); (Field (Some "dest"%string) 54%N (Some "Location"%string) []); (Field (Some "xcm"%string) 67%N (Some "Xcm<()>"%string) [])] 17%N []); (Variant "ReportHolding"%string [(Field (Some "response_info"%string) 90%N (Some "QueryResponseInfo"%string) []); (Field (Some "assets"%string) 91%N (Some "AssetFilter"%string) [])] 18%N []); (Variant "BuyExecution"%string [(Field (Some "fees"%string) 72%N (Some "Asset"%string) []); (Field (Some "weight_limit"%string) 94%N (Some "WeightLimit"%string) [])] 19%N []); (Variant "RefundSurplus"%string [] 20%N []); (Variant "SetErrorHandler"%string [(Field None 322%N (Some "Xcm<Call>"%string) [])] 21%N []); (Variant "SetAppendix"%string [(Field None 322%N (Some "Xcm<Call>"%string) [])] 22%N []); (Variant "ClearError"%string [] 23%N []); (Variant "ClaimAsset"%string [(Field (Some "assets"%string) 70%N (Some "Assets"%string) []); (Field (Some "ticket"%string) 54%N (Some "Location"%string) [])] 24%N []); (Variant "Trap"%string [(Field None 10%N (Some "u64"%string) [])] 25%N []); (Variant "SubscribeVersion"%string [(Field (Some "query_id"%string) 10%N (Some "QueryId"%string) []); (Field (Some "max_response_weight"%string) 9%N (Some "Weight"%string) [])] 26%N []); (Variant "UnsubscribeVersion"%string [] 27%N []); (Variant "BurnAsset"%string [(Field None 70%N (Some "Assets"%string) [])] 28%N []); (Variant "ExpectAsset"%string [(Field None 70%N (Some "Assets"%string) [])] 29%N []); (Variant "ExpectOrigin"%string [(Field None 87%N (Some "Option<Location>"%string) [])] 30%N []); (Variant "ExpectError"%string [(Field None 79%N (Some "Option<(u32, Error)>"%string) [])] 31%N []); (Variant "ExpectTransactStatus"%string [(Field None 85%N (Some "MaybeErrorCode"%string) [])] 32%N []); (Variant "QueryPallet"%string [(Field (Some "module_name"%string) 13%N (Some "Vec<u8>"%string) []); (Field (Some "response_info"%string) 90%N (Some "QueryResponseInfo"%string) [])] 33%N []); (Variant "ExpectPallet"%string [(Field (Some "index"%string) 40%N (Some "u32"%string) []); (Field (Some "name"%string) 13%N (Some "Vec<u8>"%string) []); (Field (Some "module_name"%string) 13%N (Some "Vec<u8>"%string) []); (Field (Some "crate_major"%string) 40%N (Some "u32"%string) []); (Field (Some "min_crate_minor"%string) 40%N (Some "u32"%string) [])] 34%N []); (Variant "ReportTransactStatus"%string [(Field None 90%N (Some "QueryResponseInfo"%string) [])] 35%N []); (Variant "ClearTransactStatus"%string [] 36%N []); (Variant "UniversalOrigin"%string [(Field None 57%N (Some "Junction"%string) [])] 37%N []); (Variant "ExportMessage"%string [(Field (Some "network"%string) 59%N (Some "NetworkId"%string) []); (Field (Some "destination"%string) 55%N (Some "InteriorLocation"%string) []); (Field (Some "xcm"%string) 67%N (Some "Xcm<()>"%string) [])] 38%N []); (Variant "LockAsset"%string [(Field (Some "asset"%string) 72%N (Some "Asset"%string) []); (Field (Some "unlocker"%string) 54%N (Some "Location"%string) [])] 39%N []); (Variant "UnlockAsset"%string [(Field (Some "asset"%string) 72%N (Some "Asset"%string) []); (Field (Some "target"%string) 54%N (Some "Location"%string) [])] 40%N []); (Variant "NoteUnlockable"%string [(Field (Some "asset"%string) 72%N (Some "Asset"%string) []); (Field (Some "owner"%string) 54%N (Some "Location"%string) [])] 41%N []); (Variant "RequestUnlock"%string [(Field (Some "asset"%string) 72%N (Some "Asset"%string) []); (Field (Some "locker"%string) 54%N (Some "Location"%string) [])] 42%N []); (Variant "SetFeesMode"%string [(Field (Some "jit_withdraw"%string) 30%N (Some "bool"%string) [])] 43%N []); (Variant "SetTopic"%string [(Field None 1%N (Some "[u8; 32]"%string) [])] 44%N []); (Variant "ClearTopic"%string [] 45%N []); (Variant "AliasOrigin"%string [(Field None 54%N (Some "Location"%string) [])] 46%N []); (Variant "UnpaidExecution"%string [(Field (Some "weight_limit"%string) 94%N (Some "WeightLimit"%string) []); (Field (Some "check_origin"%string) 87%N (Some "Option<Location>"%string) [])] 47%N [])]) []).
Definition md_t325 : ty := (Ty ["pallet_xcm"%string; "pallet"%string; "Error"%string] [("T"%string,None)] (TVariant [(Variant "Unreachable"%string [] 0%N ["The desired destination was unreachable, generally because there is a no way of routing"%string; "to it."%string]); (Variant "SendFailure"%string [] 1%N ["There was some other issue (i.e. not to do with routing) in sending the message."%string; "Perhaps a lack of space for buffering the message."%string]); (Variant "Filtered"%string [] 2%N ["The message execution fails the filter."%string]); (Variant "UnweighableMessage"%string [] 3%N ["The message's weight could not be determined."%string]); (Variant "DestinationNotInvertible"%string [] 4%N ["The destination `Location` provided cannot be inverted."%string]); (Variant "Empty"%string [] 5%N ["The assets to be sent are empty."%string]); (Variant "CannotReanchor"%string [] 6%N ["Could not re-anchor the assets to declare the fees for the destination chain."%string]); (Variant "TooManyAssets"%string [] 7%N ["Too many assets have been attempted for transfer."%string]); (Variant "InvalidOrigin"%string [] 8%N ["Origin is invalid for sending."%string]); (Variant "BadVersion"%string [] 9%N ["The version of the `Versioned` value used is not able to be interpreted."%string]); (Variant "BadLocation"%string [] 10%N ["The given location could not be used (e.g. because it cannot be expressed in the"%string; "desired version of XCM)."%string]); (Variant "NoSubscription"%string [] 11%N ["The referenced subscription could not be found."%string]); (Variant "AlreadySubscribed"%string [] 12%N ["The location is invalid since it already has a subscription from us."%string]); (Variant "CannotCheckOutTeleport"%string [] 13%N ["Could not check-out the assets for teleportation to the destination chain."%string]); (Variant "LowBalance"%string [] 14%N ["The owner does not own (all) of the asset that they wish to do the operation on."%string]); (Variant "TooManyLocks"%string [] 15%N ["The asset owner has too many locks on the asset."%string]); (Variant "AccountNotSovereign"%string [] 16%N ["The given account is not an identifiable sovereign account for any location."%string]); (Variant "FeesNotMet"%string [] 17%N ["The operation required fees to be paid which the initiator could not meet."%string]); (Variant "LockNotFound"%string [] 18%N ["A remote lock with the corresponding data could not be found."%string]); (Variant "InUse"%string [] 19%N ["The unlock operation cannot succeed because there are still consumers of the lock."%string]); (Variant "InvalidAssetNotConcrete"%string [] 20%N ["Invalid non-concrete asset."%string]); (Variant "InvalidAssetUnknownReserve"%string [] 21%N ["Invalid asset, reserve chain could not be determined for it."%string]); (Variant "InvalidAssetUnsupportedReserve"%string [] 22%N ["Invalid asset, do not support remote asset reserves with different fees reserves."%string]); (Variant "TooManyReserves"%string [] 23%N ["Too many assets with different reserve locations have been attempted for transfer."%string]); (Variant "LocalExecutionIncomplete"%string [] 24%N ["Local XCM execution incomplete."%string])]) ["The `Error` enum of this pallet."%string]).
Definition md_t326 : ty := (Ty ["cumulus_pallet_xcm"%string; "pallet"%string; "Call"%string] [("T"%string,None)] (TVariant []) ["Contains a variant per dispatchable extrinsic that this pallet has."%string]).
Definition md_t327 : ty := (Ty ["cumulus_pallet_dmp_queue"%string; "pallet"%string; "MigrationState"%string] [] (TVariant [(Variant "NotStarted"%string [] 0%N []); (Variant "StartedExport"%string [(Field (Some "next_begin_used"%string) 4%N (Some "PageCounter"%string) [])] 1%N []); (Variant "CompletedExport"%string [] 2%N []); (Variant "StartedOverweightExport"%string [(Field (Some "next_overweight_index"%string) 11%N (Some "u64"%string) [])] 3%N []); (Variant "CompletedOverweightExport"%string [] 4%N []); (Variant "StartedCleanup"%string [(Field (Some "cursor"%string) 328%N (Some "Option<BoundedVec<u8, ConstU32<1024>>>"%string) [])] 5%N []); (Variant "Completed"%string [] 6%N [])]) []).
Definition md_t328 : ty := (Ty ["Option"%string] [("T"%string,(Some 329%N))] (TVariant [(Variant "None"%string [] 0%N []); (Variant "Some"%string [(Field None 329%N None [])] 1%N [])]) []).
Definition md_t329 : ty := (Ty ["bounded_collections"%string; "bounded_vec"%string; "BoundedVec"%string] [("T"%string,(Some 2%N)); ("S"%string,None)] (TComposite [(Field None 13%N (Some "Vec<T>"%string) [])]) []).
Definition md_t330 : ty := (Ty ["cumulus_pallet_dmp_queue"%string; "pallet"%string; "Call"%string] [("T"%string,None)] (TVariant []) ["Contains a variant per dispatchable extrinsic that this pallet has."%string]).
Definition md_t331 : ty := (Ty ["bp_xcm_bridge_hub_router"%string; "BridgeState"%string] [] (TComposite [(Field (Some "delivery_fee_factor"%string) 205%N (Some "FixedU128"%string) []); (Field (Some "is_congested"%string) 30%N (Some "bool"%string) [])]) []).
Definition md_t332 : ty := (Ty ["pallet_xcm_bridge_hub_router"%string; "pallet"%string; "Call"%string] [("T"%string,None); ("I"%string,None)] (TVariant [(Variant "report_bridge_status"%string [(Field (Some "bridge_id"%string) 12%N (Some "H256"%string) []); (Field (Some "is_congested"%string) 30%N (Some "bool"%string) [])] 0%N ["See [`Pallet::report_bridge_status`]."%string])]) ["Contains a variant per dispatchable extrinsic that this pallet has."%string]).
Definition md_t333 : ty := (Ty ["pallet_message_queue"%string; "BookState"%string] [("MessageOrigin"%string,(Some 119%N))] (TComposite [(Field (Some "begin"%string) 4%N (Some "PageIndex"%string) []); (Field (Some "end"%string) 4%N (Some "PageIndex"%string) []); (Field (Some "count"%string) 4%N (Some "PageIndex"%string) []); (Field (Some "ready_neighbours"%string) 334%N (Some "Option<Neighbours<MessageOrigin>>"%string) []); (Field (Some "message_count"%string) 11%N (Some "u64"%string) []); (Field (Some "size"%string) 11%N (Some "u64"%string) [])]) []).
Definition md_t334 : ty := (Ty ["Option"%string] [("T"%string,(Some 335%N))] (TVariant [(Variant "None"%string [] 0%N []); (Variant "Some"%string [(Field None 335%N None [])] 1%N [])]) []).
Definition md_t335 : ty := (Ty ["pallet_message_queue"%string; "Neighbours"%string] [("MessageOrigin"%string,(Some 119%N))] (TComposite [(Field (Some "prev"%string) 119%N (Some "MessageOrigin"%string) []); (Field (Some "next"%string) 119%N (Some "MessageOrigin"%string) [])]) []).
Definition md_t336 : ty := (Ty [] [] (TTuple [119%N; 4%N]) []).
Definition md_t337 : ty := (Ty ["pallet_message_queue"%string; "Page"%string] [("Size"%string,(Some 4%N)); ("HeapSize"%string,None)] (TComposite [(Field (Some "remaining"%string) 4%N (Some "Size"%string) []); (Field (Some "remaining_size"%string) 4%N (Some "Size"%string) []); (Field (Some "first_index"%string) 4%N (Some "Size"%string) []); (Field (Some "first"%string) 4%N (Some "Size"%string) []); (Field (Some "last"%string) 4%N (Some "Size"%string) []); (Field (Some "heap"%string) 338%N (Some "BoundedVec<u8, IntoU32<HeapSize, Size>>"%string) [])]) []).
Definition md_t338 : ty := (Ty ["bounded_collections"%string; "bounded_vec"%string; "BoundedVec"%string] [("T"%string,(Some 2%N)); ("S"%string,None)] (TComposite [(Field None 13%N (Some "Vec<T>"%string) [])]) []).
Definition md_t339 : ty := (Ty ["pallet_message_queue"%string; "pallet"%string; "Call"%string] [("T"%string,None)] (TVariant [(Variant "reap_page"%string [(Field (Some "message_origin"%string) 119%N (Some "MessageOriginOf<T>"%string) []); (Field (Some "page_index"%string) 4%N (Some "PageIndex"%string) [])] 0%N ["See [`Pallet::reap_page`]."%string]); (Variant "execute_overweight"%string [(Field (Some "message_origin"%string) 119%N (Some "MessageOriginOf<T>"%string) []); (Field (Some "page"%string) 4%N (Some "PageIndex"%string) []); (Field (Some "index"%string) 4%N (Some "T::Size"%string) []); (Field (Some "weight_limit"%string) 9%N (Some "Weight"%string) [])] 1%N ["See [`Pallet::execute_overweight`]."%string])]) ["Contains a variant per dispatchable extrinsic that this pallet has."%string]).
Definition md_t340 : ty := (Ty ["pallet_message_queue"%string; "pallet"%string; "Error"%string] [("T"%string,None)] (TVariant [(Variant "NotReapable"%string [] 0%N ["Page is not reapable because it has items remaining to be processed and is not old"%string; "enough."%string]); (Variant "NoPage"%string [] 1%N ["Page to be reaped does not exist."%string]); (Variant "NoMessage"%string [] 2%N ["The referenced message could not be found."%string]); (Variant "AlreadyProcessed"%string [] 3%N ["The message was already processed and cannot be processed again."%string]); (Variant "Queued"%string [] 4%N ["The message is queued for future execution."%string]); (Variant "InsufficientWeight"%string [] 5%N ["There is temporarily not enough weight to continue servicing messages."%string]); (Variant "TemporarilyUnprocessable"%string [] 6%N ["This message is temporarily unprocessable."%string; ""%string; "Such errors are expected, but not guaranteed, to resolve themselves eventually through"%string; "retrying."%string]); (Variant "QueuePaused"%string [] 7%N ["The queue is paused and no message can be executed from it."%string; ""%string; "This can change at any time and may resolve in the future by re-trying."%string]); (Variant "RecursiveDisallowed"%string [] 8%N ["Another call is in progress and needs to finish before this call can happen."%string])]) ["The `Error` enum of this pallet."%string]).
Definition md_t341 : ty := (Ty ["pallet_utility"%string; "pallet"%string; "Call"%string] [("T"%string,None)] (TVariant [(Variant "batch"%string [(Field (Some "calls"%string) 342%N (Some "Vec<<T as Config>::RuntimeCall>"%string) [])] 0%N ["See [`Pallet::batch`]."%string]); (Variant "as_derivative"%string [(Field (Some "index"%string) 129%N (Some "u16"%string) []); (Field (Some "call"%string) 343%N (Some "Box<<T as Config>::RuntimeCall>"%string) [])] 1%N ["See [`Pallet::as_derivative`]."%string]); (Variant "batch_all"%string [(Field (Some "calls"%string) 342%N (Some "Vec<<T as Config>::RuntimeCall>"%string) [])] 2%N ["See [`Pallet::batch_all`]."%string]); (Variant "dispatch_as"%string [(Field (Some "as_origin"%string) 381%N (Some "Box<T::PalletsOrigin>"%string) []); (Field (Some "call"%string) 343%N (Some "Box<<T as Config>::RuntimeCall>"%string) [])] 3%N ["See [`Pallet::dispatch_as`]."%string]); (Variant "force_batch"%string [(Field (Some "calls"%string) 342%N (Some "Vec<<T as Config>::RuntimeCall>"%string) [])] 4%N ["See [`Pallet::force_batch`]."%string]); (Variant "with_weight"%string [(Field (Some "call"%string) 343%N (Some "Box<<T as Config>::RuntimeCall>"%string) []); (Field (Some "weight"%string) 9%N (Some "Weight"%string) [])] 5%N ["See [`Pallet::with_weight`]."%string])]) ["Contains a variant per dispatchable extrinsic that this pallet has."%string]).
Definition md_t342 : ty := (Ty [] [] (TSequence 343%N) []).
Definition md_t343 : ty := (Ty ["asset_hub_polkadot_runtime"%string; "RuntimeCall"%string] [] (TVariant [(Variant "System"%string [(Field None 159%N (Some "self::sp_api_hidden_includes_construct_runtime::hidden_include::dispatch
::CallableCallFor<System, Runtime>"%string) [])] 0%N []); (Variant "ParachainSystem"%string [(Field None 206%N (Some "self::sp_api_hidden_includes_construct_runtime::hidden_include::dispatch
::CallableCallFor<ParachainSystem, Runtime>"%string) [])] 1%N []); (Variant "Timestamp"%string [(Field None 216%N (Some "self::sp_api_hidden_includes_construct_runtime::hidden_include::dispatch
::CallableCallFor<Timestamp, Runtime>"%string) [])] 3%N []); (Variant "ParachainInfo"%string [(Field None 217%N (Some "self::sp_api_hidden_includes_construct_runtime::hidden_include::dispatch
::CallableCallFor<ParachainInfo, Runtime>"%string) [])] 4%N []); (Variant "Balances"%string [(Field None 232%N (Some "self::sp_api_hidden_includes_construct_runtime::hidden_include::dispatch
::CallableCallFor<Balances, Runtime>"%string) [])] 10%N []); (Variant "CollatorSelection"%string [(Field None 242%N (Some "self::sp_api_hidden_includes_construct_runtime::hidden_include::dispatch
::CallableCallFor<CollatorSelection, Runtime>"%string) [])] 21%N []); (Variant "Session"%string [(Field None 251%N (Some "self::sp_api_hidden_includes_construct_runtime::hidden_include::dispatch
::CallableCallFor<Session, Runtime>"%string) [])] 22%N []); (Variant "XcmpQueue"%string [(Field None 265%N (Some "self::sp_api_hidden_includes_construct_runtime::hidden_include::dispatch
::CallableCallFor<XcmpQueue, Runtime>"%string) [])] 30%N []); (Variant "PolkadotXcm"%string [(Field None 297%N (Some "self::sp_api_hidden_includes_construct_runtime::hidden_include::dispatch
::CallableCallFor<PolkadotXcm, Runtime>"%string) [])] 31%N []); (Variant "CumulusXcm"%string [(Field None 326%N (Some "self::sp_api_hidden_includes_construct_runtime::hidden_include::dispatch
::CallableCallFor<CumulusXcm, Runtime>"%string) [])] 32%N []); (Variant "DmpQueue"%string [(Field None 330%N (Some "self::sp_api_hidden_includes_construct_runtime::hidden_include::dispatch
::CallableCallFor<DmpQueue, Runtime>"%string) [])] 33%N []); (Variant "ToKusamaXcmRouter"%string [(Field None 332%N (Some "self::sp_api_hidden_includes_construct_runtime::hidden_include::dispatch
::CallableCallFor<ToKusamaXcmRouter, Runtime>"%string) [])] 34%N []); (Variant "MessageQueue"%string [(Field None 339%N (Some "self::sp_api_hidden_includes_construct_runtime::hidden_include::dispatch
::CallableCallFor<MessageQueue, Runtime>"%string) [])] 35%N []); (Variant "Utility"%string [(Field None 341%N (Some "self::sp_api_hidden_includes_construct_runtime::hidden_include::dispatch
::CallableCallFor<Utility, Runtime>"%string) [])] 40%N []); (Variant "Multisig"%string [(Field None 344%N (Some "self::sp_api_hidden_includes_construct_runtime::hidden_include::dispatch
::CallableCallFor<Multisig, Runtime>"%string) [])] 41%N []); (Variant "Proxy"%string [(Field None 346%N (Some "self::sp_api_hidden_includes_construct_runtime::hidden_include::dispatch
::CallableCallFor<Proxy, Runtime>"%string) [])] 42%N []); (Variant "Assets"%string [(Field None 348%N (Some "self::sp_api_hidden_includes_construct_runtime::hidden_include::dispatch
::CallableCallFor<Assets, Runtime>"%string) [])] 50%N []); (Variant "Uniques"%string [(Field None 349%N (Some "self::sp_api_hidden_includes_construct_runtime::hidden_include::dispatch
::CallableCallFor<Uniques, Runtime>"%string) [])] 51%N []); (Variant "Nfts"%string [(Field None 353%N (Some "self::sp_api_hidden_includes_construct_runtime::hidden_include::dispatch
::CallableCallFor<Nfts, Runtime>"%string) [])] 52%N []); (Variant "ForeignAssets"%string [(Field None 377%N (Some "self::sp_api_hidden_includes_construct_runtime::hidden_include::dispatch
::CallableCallFor<ForeignAssets, Runtime>"%string) [])] 53%N []); (Variant "PoolAssets"%string [(Field None 378%N (Some "self::sp_api_hidden_includes_construct_runtime::hidden_include::dispatch
::CallableCallFor<PoolAssets, Runtime>"%string) [])] 54%N []); (Variant "AssetConversion"%string [(Field None 379%N (Some "self::sp_api_hidden_includes_construct_runtime::hidden_include::dispatch
::CallableCallFor<AssetConversion, Runtime>"%string) [])] 55%N [])]) []).
Definition md_t344 : ty := (Ty ["pallet_multisig"%string; "pallet"%string; "Call"%string] [("T"%string,None)] (TVariant [(Variant "as_multi_threshold_1"%string [(Field (Some "other_signatories"%string) 48%N (Some "Vec<T::AccountId>"%string) []); (Field (Some "call"%string) 343%N (Some "Box<<T as Config>::RuntimeCall>"%string) [])] 0%N ["See [`Pallet::as_multi_threshold_1`]."%string]); (Variant "as_multi"%string [(Field (Some "threshold"%string) 129%N (Some "u16"%string) []); (Field (Some "other_signatories"%string) 48%N (Some "Vec<T::AccountId>"%string) []); (Field (Some "maybe_timepoint"%string) 345%N (Some "Option<Timepoint<BlockNumberFor<T>>>"%string) []); (Field (Some "call"%string) 343%N (Some "Box<<T as Config>::RuntimeCall>"%string) []); (Field (Some "max_weight"%string) 9%N (Some "Weight"%string) [])] 1%N ["See [`Pallet::as_multi`]."%string]); (Variant "approve_as_multi"%string [(Field (Some "threshold"%string) 129%N (Some "u16"%string) []); (Field (Some "other_signatories"%string) 48%N (Some "Vec<T::AccountId>"%string) []); (Field (Some "maybe_timepoint"%string) 345%N (Some "Option<Timepoint<BlockNumberFor<T>>>"%string) []); (Field (Some "call_hash"%string) 1%N (Some "[u8; 32]"%string) []); (Field (Some "max_weight"%string) 9%N (Some "Weight"%string) [])] 2%N ["See [`Pallet::approve_as_multi`]."%string]); (Variant "cancel_as_multi"%string [(Field (Some "threshold"%string) 129%N (Some "u16"%string) []); (Field (Some "other_signatories"%string) 48%N (Some "Vec<T::AccountId>"%string) []); (Field (Some "timepoint"%string) 126%N (Some "Timepoint<BlockNumberFor<T>>"%string) []); (Field (Some "call_hash"%string) 1%N (Some "[u8; 32]"%string) [])] 3%N ["See [`Pallet::cancel_as_multi`]."%string])]) ["Contains a variant per dispatchable extrinsic that this pallet has."%string]).
Definition md_t345 : ty := (Ty ["Option"%string] [("T"%string,(Some 126%N))] (TVariant [(Variant "None"%string [] 0%N []); (Variant "Some"%string [(Field None 126%N None [])] 1%N [])]) []).
Definition md_t346 : ty := (Ty ["pallet_proxy"%string; "pallet"%string; "Call"%string] [("T"%string,None)] (TVariant [(Variant "proxy"%string [(Field (Some "real"%string) 233%N (Some "AccountIdLookupOf<T>"%string) []); (Field (Some "force_proxy_type"%string) 347%N (Some "Option<T::ProxyType>"%string) []); (Field (Some "call"%string) 343%N (Some "Box<<T as Config>::RuntimeCall>"%string) [])] 0%N ["See [`Pallet::proxy`]."%string]); (Variant "add_proxy"%string [(Field (Some "delegate"%string) 233%N (Some "AccountIdLookupOf<T>"%string) []); (Field (Some "proxy_type"%string) 128%N (Some "T::ProxyType"%string) []); (Field (Some "delay"%string) 4%N (Some "BlockNumberFor<T>"%string) [])] 1%N ["See [`Pallet::add_proxy`]."%string]); (Variant "remove_proxy"%string [(Field (Some "delegate"%string) 233%N (Some "AccountIdLookupOf<T>"%string) []); (Field (Some "proxy_type"%string) 128%N (Some "T::ProxyType"%string) []); (Field (Some "delay"%string) 4%N (Some "BlockNumberFor<T>"%string) [])] 2%N ["See [`Pallet::remove_proxy`]."%string]); (Variant "remove_proxies"%string [] 3%N ["See [`Pallet::remove_proxies`]."%string]); (Variant "create_pure"%string [(Field (Some "proxy_type"%string) 128%N (Some "T::ProxyType"%string) []); (Field (Some "delay"%string) 4%N (Some "BlockNumberFor<T>"%string) []); (Field (Some "index"%string) 129%N (Some "u16"%string) [])] 4%N ["See [`Pallet::create_pure`]."%string]); (Variant "kill_pure"%string [(Field (Some "spawner"%string) 233%N (Some "AccountIdLookupOf<T>"%string) []); (Field (Some "proxy_type"%string) 128%N (Some "T::ProxyType"%string) []); (Field (Some "index"%string) 129%N (Some "u16"%string) []); (Field (Some "height"%string) 40%N (Some "BlockNumberFor<T>"%string) []); (Field (Some "ext_index"%string) 40%N (Some "u32"%string) [])] 5%N ["See [`Pallet::kill_pure`]."%string]); (Variant "announce"%string [(Field (Some "real"%string) 233%N (Some "AccountIdLookupOf<T>"%string) []); (Field (Some "call_hash"%string) 12%N (Some "CallHashOf<T>"%string) [])] 6%N ["See [`Pallet::announce`]."%string]); (Variant "remove_announcement"%string [(Field (Some "real"%string) 233%N (Some "AccountIdLookupOf<T>"%string) []); (Field (Some "call_hash"%string) 12%N (Some "CallHashOf<T>"%string) [])] 7%N ["See [`Pallet::remove_announcement`]."%string]); (Variant "reject_announcement"%string [(Field (Some "delegate"%string) 233%N (Some "AccountIdLookupOf<T>"%string) []); (Field (Some "call_hash"%string) 12%N (Some "CallHashOf<T>"%string) [])] 8%N ["See [`Pallet::reject_announcement`]."%string]); (Variant "proxy_announced"%string [(Field (Some "delegate"%string) 233%N (Some "AccountIdLookupOf<T>"%string) []); (Field (Some "real"%string) 233%N (Some "AccountIdLookupOf<T>"%string) []); (Field (Some "force_proxy_type"%string) 347%N (Some "Option<T::ProxyType>"%string) []); (Field (Some "call"%string) 343%N (Some "Box<<T as Config>::RuntimeCall>"%string) [])] 9%N ["See [`Pallet::proxy_announced`]."%string])]) ["Contains a variant per dispatchable extrinsic that this pallet has."%string]).
Definition md_t347 : ty := (Ty ["Option"%string] [("T"%string,(Some 128%N))] (TVariant [(Variant "None"%string [] 0%N []); (Variant "Some"%string [(Field None 128%N None [])] 1%N [])]) []).
Definition md_t348 : ty := (Ty ["pallet_assets"%string; "pallet"%string; "Call"%string] [("T"%string,None); ("I"%string,None)] (TVariant [(Variant "create"%string [(Field (Some "id"%string) 40%N (Some "T::AssetIdParameter"%string) []); (Field (Some "admin"%string) 233%N (Some "AccountIdLookupOf<T>"%string) []); (Field (Some "min_balance"%string) 6%N (Some "T::Balance"%string) [])] 0%N ["See [`Pallet::create`]."%string]); (Variant "force_create"%string [(Field (Some "id"%string) 40%N (Some "T::AssetIdParameter"%string) []); (Field (Some "owner"%string) 233%N (Some "AccountIdLookupOf<T>"%string) []); (Field (Some "is_sufficient"%string) 30%N (Some "bool"%string) []); (Field (Some "min_balance"%string) 44%N (Some "T::Balance"%string) [])] 1%N ["See [`Pallet::force_create`]."%string]); (Variant "start_destroy"%string [(Field (Some "id"%string) 40%N (Some "T::AssetIdParameter"%string) [])] 2%N ["See [`Pallet::start_destroy`]."%string]); (Variant "destroy_accounts"%string [(Field (Some "id"%string) 40%N (Some "T::AssetIdParameter"%string) [])] 3%N ["See [`Pallet::destroy_accounts`]."%string]); (Variant "destroy_approvals"%string [(Field (Some "id"%string) 40%N (Some "T::AssetIdParameter"%string) [])] 4%N ["See [`Pallet::destroy_approvals`]."%string]); (Variant "finish_destroy"%string [(Field (Some "id"%string) 40%N (Some "T::AssetIdParameter"%string) [])] 5%N ["See [`Pallet::finish_destroy`]."%string]); (Variant "mint"%string [(Field (Some "id"%string) 40%N (Some "T::AssetIdParameter"%string) []); (Field (Some "beneficiary"%string) 233%N (Some "AccountIdLookupOf<T>"%string) []); (Field (Some "amount"%string) 44%N (Some "T::Balance"%string) [])] 6%N ["See [`Pallet::mint`]."%string]); (Variant "burn"%string [(Field (Some "id"%string) 40%N (Some "T::AssetIdParameter"%string) []); (Field (Some "who"%string) 233%N (Some "AccountIdLookupOf<T>"%string) []); (Field (Some "amount"%string) 44%N (Some "T::Balance"%string) [])] 7%N ["See [`Pallet::burn`]."%string]); (Variant "transfer"%string [(Field (Some "id"%string) 40%N (Some "T::AssetIdParameter"%string) []); (Field (Some "target"%string) 233%N (Some "AccountIdLookupOf<T>"%string) []); (Field (Some "amount"%string) 44%N (Some "T::Balance"%string) [])] 8%N ["See [`Pallet::transfer`]."%string]); (Variant "transfer_keep_alive"%string [(Field (Some "id"%string) 40%N (Some "T::AssetIdParameter"%string) []); (Field (Some "target"%string) 233%N (Some "AccountIdLookupOf<T>"%string) []); (Field (Some "amount"%string) 44%N (Some "T::Balance"%string) [])] 9%N ["See [`Pallet::transfer_keep_alive`]."%string]); (Variant "force_transfer"%string [(Field (Some "id"%string) 40%N (Some "T::AssetIdParameter"%string) []); (Field (Some "source"%string) 233%N (Some "AccountIdLookupOf<T>"%string) []); (Field (Some "dest"%string) 233%N (Some "AccountIdLookupOf<T>"%string) []); (Field (Some "amount"%string) 44%N (Some "T::Balance"%string) [])] 10%N ["See [`Pallet::force_transfer`]."%string]); (Variant "freeze"%string [(Field (Some "id"%string) 40%N (Some "T::AssetIdParameter"%string) []); (Field (Some "who"%string) 233%N (Some "AccountIdLookupOf<T>"%string) [])] 11%N ["See [`Pallet::freeze`]."%string]); (Variant "thaw"%string [(Field (Some "id"%string) 40%N (Some "T::AssetIdParameter"%string) []); (Field (Some "who"%string) 233%N (Some "AccountIdLookupOf<T>"%string) [])] 12%N ["See [`Pallet::thaw`]."%string]); (Variant "freeze_asset"%string [(Field (Some "id"%string) 40%N (Some "T::AssetIdParameter"%string) [])] 13%N ["See [`Pallet::freeze_asset`]."%string]); (Variant "thaw_asset"%string [(Field (Some "id"%string) 40%N (Some "T::AssetIdParameter"%string) [])] 14%N ["See [`Pallet::thaw_asset`]."%string]); (Variant "transfer_ownership"%string [(Field (Some "id"%string) 40%N (Some "T::AssetIdParameter"%string) []); (Field (Some "owner"%string) 233%N (Some "AccountIdLookupOf<T>"%string) [])] 15%N ["See [`Pallet::transfer_ownership`]."%string]); (Variant "set_team"%string [(Field (Some "id"%string) 40%N (Some "T::AssetIdParameter"%string) []); (Field (Some "issuer"%string) 233%N (Some "AccountIdLookupOf<T>"%string) []); (Field (Some "admin"%string) 233%N (Some "AccountIdLookupOf<T>"%string) []); (Field (Some "freezer"%string) 233%N (Some "AccountIdLookupOf<T>"%string) [])] 16%N ["See [`Pallet::set_team`]."%string]); (Variant "set_metadata"%string [(Field (Some "id"%string) 40%N (Some "T::AssetIdParameter"%string) []); (Field (Some "name"%string) 13%N (Some "Vec<u8>"%string) []); (Field (Some "symbol"%string) 13%N (Some "Vec<u8>"%string) []); (Field (Some "decimals"%string) 2%N (Some "u8"%string) [])] 17%N ["See [`Pallet::set_metadata`]."%string]); (Variant "clear_metadata"%string [(Field (Some "id"%string) 40%N (Some "T::AssetIdParameter"%string) [])] 18%N ["See [`Pallet::clear_metadata`]."%string]); (Variant "force_set_metadata"%string [(Field (Some "id"%string) 40%N (Some "T::AssetIdParameter"%string) []); (Field (Some "name"%string) 13%N (Some "Vec<u8>"%string) []); (Field (Some "symbol"%string) 13%N (Some "Vec<u8>"%string) []); (Field (Some "decimals"%string) 2%N (Some "u8"%string) []); (Field (Some "is_frozen"%string) 30%N (Some "bool"%string) [])] 19%N ["See [`Pallet::force_set_metadata`]."%string]); (Variant "force_clear_metadata"%string [(Field (Some "id"%string) 40%N (Some "T::AssetIdParameter"%string) [])] 20%N ["See [`Pallet::force_clear_metadata`]."%string]); (Variant "force_asset_status"%string [(Field (Some "id"%string) 40%N (Some "T::AssetIdParameter"%string) []); (Field (Some "owner"%string) 233%N (Some "AccountIdLookupOf<T>"%string) []); (Field (Some "issuer"%string) 233%N (Some "AccountIdLookupOf<T>"%string) []); (Field (Some "admin"%string) 233%N (Some "AccountIdLookupOf<T>"%string) []); (Field (Some "freezer"%string) 233%N (Some "AccountIdLookupOf<T>"%string) []); (Field (Some "min_balance"%string) 44%N (Some "T::Balance"%string) []); (Field (Some "is_sufficient"%string) 30%N (Some "bool"%string) []); (Field (Some "is_frozen"%string) 30%N (Some "bool"%string) [])] 21%N ["See [`Pallet::force_asset_status`]."%string]); (Variant "approve_transfer"%string [(Field (Some "id"%string) 40%N (Some "T::AssetIdParameter"%string) []); (Field (Some "delegate"%string) 233%N (Some "AccountIdLookupOf<T>"%string) []); (Field (Some "amount"%string) 44%N (Some "T::Balance"%string) [])] 22%N ["See [`Pallet::approve_transfer`]."%string]); (Variant "cancel_approval"%string [(Field (Some "id"%string) 40%N (Some "T::AssetIdParameter"%string) []); (Field (Some "delegate"%string) 233%N (Some "AccountIdLookupOf<T>"%string) [])] 23%N ["See [`Pallet::cancel_approval`]."%string]); (Variant "force_cancel_approval"%string [(Field (Some "id"%string) 40%N (Some "T::AssetIdParameter"%string) []); (Field (Some "owner"%string) 233%N (Some "AccountIdLookupOf<T>"%string) []); (Field (Some "delegate"%string) 233%N (Some "AccountIdLookupOf<T>"%string) [])] 24%N ["See [`Pallet::force_cancel_approval`]."%string]); (Variant "transfer_approved"%string [(Field (Some "id"%string) 40%N (Some "T::AssetIdParameter"%string) []); (Field (Some "owner"%string) 233%N (Some "AccountIdLookupOf<T>"%string) []); (Field (Some "destination"%string) 233%N (Some "AccountIdLookupOf<T>"%string) []); (Field (Some "amount"%string) 44%N (Some "T::Balance"%string) [])] 25%N ["See [`Pallet::transfer_approved`]."%string]); (Variant "touch"%string [(Field (Some "id"%string) 40%N (Some "T::AssetIdParameter"%string) [])] 26%N ["See [`Pallet::touch`]."%string]); (Variant "refund"%string [(Field (Some "id"%string) 40%N (Some "T::AssetIdParameter"%string) []); (Field (Some "allow_burn"%string) 30%N (Some "bool"%string) [])] 27%N ["See [`Pallet::refund`]."%string]); (Variant "set_min_balance"%string [(Field (Some "id"%string) 40%N (Some "T::AssetIdParameter"%string) []); (Field (Some "min_balance"%string) 6%N (Some "T::Balance"%string) [])] 28%N ["See [`Pallet::set_min_balance`]."%string]); (Variant "touch_other"%string [(Field (Some "id"%string) 40%N (Some "T::AssetIdParameter"%string) []); (Field (Some "who"%string) 233%N (Some "AccountIdLookupOf<T>"%string) [])] 29%N ["See [`Pallet::touch_other`]."%string]); (Variant "refund_other"%string [(Field (Some "id"%string) 40%N (Some "T::AssetIdParameter"%string) []); (Field (Some "who"%string) 233%N (Some "AccountIdLookupOf<T>"%string) [])] 30%N ["See [`Pallet::refund_other`]."%string]); (Variant "block"%string [(Field (Some "id"%string) 40%N (Some "T::AssetIdParameter"%string) []); (Field (Some "who"%string) 233%N (Some "AccountIdLookupOf<T>"%string) [])] 31%N ["See [`Pallet::block`]."%string])]) ["Contains a variant per dispatchable extrinsic that this pallet has."%string]).
Definition md_t349 : ty := (Ty ["pallet_uniques"%string; "pallet"%string; "Call"%string] [("T"%string,None); ("I"%string,None)] (TVariant [(Variant "create"%string [(Field (Some "collection"%string) 4%N (Some "T::CollectionId"%string) []); (Field (Some "admin"%string) 233%N (Some "AccountIdLookupOf<T>"%string) [])] 0%N ["See [`Pallet::create`]."%string]); (Variant "force_create"%string [(Field (Some "collection"%string) 4%N (Some "T::CollectionId"%string) []); (Field (Some "owner"%string) 233%N (Some "AccountIdLookupOf<T>"%string) []); (Field (Some "free_holding"%string) 30%N (Some "bool"%string) [])] 1%N ["See [`Pallet::force_create`]."%string]); (Variant "destroy"%string [(Field (Some "collection"%string) 4%N (Some "T::CollectionId"%string) []); (Field (Some "witness"%string) 350%N (Some "DestroyWitness"%string) [])] 2%N ["See [`Pallet::destroy`]."%string]); (Variant "mint"%string [(Field (Some "collection"%string) 4%N (Some "T::CollectionId"%string) []); (Field (Some "item"%string) 4%N (Some "T::ItemId"%string) []); (Field (Some "owner"%string) 233%N (Some "AccountIdLookupOf<T>"%string) [])] 3%N ["See [`Pallet::mint`]."%string]); (Variant "burn"%string [(Field (Some "collection"%string) 4%N (Some "T::CollectionId"%string) []); (Field (Some "item"%string) 4%N (Some "T::ItemId"%string) []); (Field (Some "check_owner"%string) 351%N (Some "Option<AccountIdLookupOf<T>>"%string) [])] 4%N ["See [`Pallet::burn`]."%string]); (Variant "transfer"%string [(Field (Some "collection"%string) 4%N (Some "T::CollectionId"%string) []); (Field (Some "item"%string) 4%N (Some "T::ItemId"%string) []); (Field (Some "dest"%string) 233%N (Some "AccountIdLookupOf<T>"%string) [])] 5%N ["See [`Pallet::transfer`]."%string]); (Variant "redeposit"%string [(Field (Some "collection"%string) 4%N (Some "T::CollectionId"%string) []); (Field (Some "items"%string) 133%N (Some "Vec<T::ItemId>"%string) [])] 6%N ["See [`Pallet::redeposit`]."%string]); (Variant "freeze"%string [(Field (Some "collection"%string) 4%N (Some "T::CollectionId"%string) []); (Field (Some "item"%string) 4%N (Some "T::ItemId"%string) [])] 7%N ["See [`Pallet::freeze`]."%string]); (Variant "thaw"%string [(Field (Some "collection"%string) 4%N (Some "T::CollectionId"%string) []); (Field (Some "item"%string) 4%N (Some "T::ItemId"%string) [])] 8%N ["See [`Pallet::thaw`]."%string]); (Variant "freeze_collection"%string [(Field (Some "collection"%string) 4%N (Some "T::CollectionId"%string) [])] 9%N ["See [`Pallet::freeze_collection`]."%string]); (Variant "thaw_collection"%string [(Field (Some "collection"%string) 4%N (Some "T::CollectionId"%string) [])] 10%N ["See [`Pallet::thaw_collection`]."%string]); (Variant "transfer_ownership"%string [(Field (Some "collection"%string) 4%N (Some "T::CollectionId"%string) []); (Field (Some "new_owner"%string) 233%N (Some "AccountIdLookupOf<T>"%string) [])] 11%N ["See [`Pallet::transfer_ownership`]."%string]); (Variant "set_team"%string [(Field (Some "collection"%string) 4%N (Some "T::CollectionId"%string) []); (Field (Some "issuer"%string) 233%N (Some "AccountIdLookupOf<T>"%string) []); (Field (Some "admin"%string) 233%N (Some "AccountIdLookupOf<T>"%string) []); (Field (Some "freezer"%string) 233%N (Some "AccountIdLookupOf<T>"%string) [])] 12%N ["See [`Pallet::set_team`]."%string]); (Variant "approve_transfer"%string [(Field (Some "collection"%string) 4%N (Some "T::CollectionId"%string) []); (Field (Some "item"%string) 4%N (Some "T::ItemId"%string) []); (Field (Some "delegate"%string) 233%N (Some "AccountIdLookupOf<T>"%string) [])] 13%N ["See [`Pallet::approve_transfer`]."%string]); (Variant "cancel_approval"%string [(Field (Some "collection"%string) 4%N (Some "T::CollectionId"%string) []); (Field (Some "item"%string) 4%N (Some "T::ItemId"%string) []); (Field (Some "maybe_check_delegate"%string) 351%N (Some "Option<AccountIdLookupOf<T>>"%string) [])] 14%N ["See [`Pallet::cancel_approval`]."%string]); (Variant "force_item_status"%string [(Field (Some "collection"%string) 4%N (Some "T::CollectionId"%string) []); (Field (Some "owner"%string) 233%N (Some "AccountIdLookupOf<T>"%string) []); (Field (Some "issuer"%string) 233%N (Some "AccountIdLookupOf<T>"%string) []); (Field (Some "admin"%string) 233%N (Some "AccountIdLookupOf<T>"%string) []); (Field (Some "freezer"%string) 233%N (Some "AccountIdLookupOf<T>"%string) []); (Field (Some "free_holding"%string) 30%N (Some "bool"%string) []); (Field (Some "is_frozen"%string) 30%N (Some "bool"%string) [])] 15%N ["See [`Pallet::force_item_status`]."%string]); (Variant "set_attribute"%string [(Field (Some "collection"%string) 4%N (Some "T::CollectionId"%string) []); (Field (Some "maybe_item"%string) 134%N (Some "Option<T::ItemId>"%string) []); (Field (Some "key"%string) 135%N (Some "BoundedVec<u8, T::KeyLimit>"%string) []); (Field (Some "value"%string) 136%N (Some "BoundedVec<u8, T::ValueLimit>"%string) [])] 16%N ["See [`Pallet::set_attribute`]."%string]); (Variant "clear_attribute"%string [(Field (Some "collection"%string) 4%N (Some "T::CollectionId"%string) []); (Field (Some "maybe_item"%string) 134%N (Some "Option<T::ItemId>"%string) []); (Field (Some "key"%string) 135%N (Some "BoundedVec<u8, T::KeyLimit>"%string) [])] 17%N ["See [`Pallet::clear_attribute`]."%string]); (Variant "set_metadata"%string [(Field (Some "collection"%string) 4%N (Some "T::CollectionId"%string) []); (Field (Some "item"%string) 4%N (Some "T::ItemId"%string) []); (Field (Some "data"%string) 132%N (Some "BoundedVec<u8, T::StringLimit>"%string) []); (Field (Some "is_frozen"%string) 30%N (Some "bool"%string) [])] 18%N ["See [`Pallet::set_metadata`]."%string]); (Variant "clear_metadata"%string [(Field (Some "collection"%string) 4%N (Some "T::CollectionId"%string) []); (Field (Some "item"%string) 4%N (Some "T::ItemId"%string) [])] 19%N ["See [`Pallet::clear_metadata`]."%string]); (Variant "set_collection_metadata"%string [(Field (Some "collection"%string) 4%N (Some "T::CollectionId"%string) []); (Field (Some "data"%string) 132%N (Some "BoundedVec<u8, T::StringLimit>"%string) []); (Field (Some "is_frozen"%string) 30%N (Some "bool"%string) [])] 20%N ["See [`Pallet::set_collection_metadata`]."%string]); (Variant "clear_collection_metadata"%string [(Field (Some "collection"%string) 4%N (Some "T::CollectionId"%string) [])] 21%N ["See [`Pallet::clear_collection_metadata`]."%string]); (Variant "set_accept_ownership"%string [(Field (Some "maybe_collection"%string) 134%N (Some "Option<T::CollectionId>"%string) [])] 22%N ["See [`Pallet::set_accept_ownership`]."%string]); (Variant "set_collection_max_supply"%string [(Field (Some "collection"%string) 4%N (Some "T::CollectionId"%string) []); (Field (Some "max_supply"%string) 4%N (Some "u32"%string) [])] 23%N ["See [`Pallet::set_collection_max_supply`]."%string]); (Variant "set_price"%string [(Field (Some "collection"%string) 4%N (Some "T::CollectionId"%string) []); (Field (Some "item"%string) 4%N (Some "T::ItemId"%string) []); (Field (Some "price"%string) 352%N (Some "Option<ItemPrice<T, I>>"%string) []); (Field (Some "whitelisted_buyer"%string) 351%N (Some "Option<AccountIdLookupOf<T>>"%string) [])] 24%N ["See [`Pallet::set_price`]."%string]); (Variant "buy_item"%string [(Field (Some "collection"%string) 4%N (Some "T::CollectionId"%string) []); (Field (Some "item"%string) 4%N (Some "T::ItemId"%string) []); (Field (Some "bid_price"%string) 6%N (Some "ItemPrice<T, I>"%string) [])] 25%N ["See [`Pallet::buy_item`]."%string])]) ["Contains a variant per dispatchable extrinsic that this pallet has."%string]).
Definition md_t350 : ty := (Ty ["pallet_uniques"%string; "types"%string; "DestroyWitness"%string] [] (TComposite [(Field (Some "items"%string) 40%N (Some "u32"%string) []); (Field (Some "item_metadatas"%string) 40%N (Some "u32"%string) []); (Field (Some "attributes"%string) 40%N (Some "u32"%string) [])]) []).
Definition md_t351 : ty := (Ty ["Option"%string] [("T"%string,(Some 233%N))] (TVariant [(Variant "None"%string [] 0%N []); (Variant "Some"%string [(Field None 233%N None [])] 1%N [])]) []).
Definition md_t352 : ty := (Ty ["Option"%string] [("T"%string,(Some 6%N))] (TVariant [(Variant "None"%string [] 0%N []); (Variant "Some"%string [(Field None 6%N None [])] 1%N [])]) []).
Definition md_t353 : ty := (Ty ["pallet_nfts"%string; "pallet"%string; "Call"%string] [("T"%string,None); ("I"%string,None)] (TVariant [(Variant "create"%string [(Field (Some "admin"%string) 233%N (Some "AccountIdLookupOf<T>"%string) []); (Field (Some "config"%string) 354%N (Some "CollectionConfigFor<T, I>"%string) [])] 0%N ["See [`Pallet::create`]."%string]); (Variant "force_create"%string [(Field (Some "owner"%string) 233%N (Some "AccountIdLookupOf<T>"%string) []); (Field (Some "config"%string) 354%N (Some "CollectionConfigFor<T, I>"%string) [])] 1%N ["See [`Pallet::force_create`]."%string]); (Variant "destroy"%string [(Field (Some "collection"%string) 4%N (Some "T::CollectionId"%string) []); (Field (Some "witness"%string) 361%N (Some "DestroyWitness"%string) [])] 2%N ["See [`Pallet::destroy`]."%string]); (Variant "mint"%string [(Field (Some "collection"%string) 4%N (Some "T::CollectionId"%string) []); (Field (Some "item"%string) 4%N (Some "T::ItemId"%string) []); (Field (Some "mint_to"%string) 233%N (Some "AccountIdLookupOf<T>"%string) []); (Field (Some "witness_data"%string) 362%N (Some "Option<MintWitness<T::ItemId, DepositBalanceOf<T, I>>>"%string) [])] 3%N ["See [`Pallet::mint`]."%string]); (Variant "force_mint"%string [(Field (Some "collection"%string) 4%N (Some "T::CollectionId"%string) []); (Field (Some "item"%string) 4%N (Some "T::ItemId"%string) []); (Field (Some "mint_to"%string) 233%N (Some "AccountIdLookupOf<T>"%string) []); (Field (Some "item_config"%string) 364%N (Some "ItemConfig"%string) [])] 4%N ["See [`Pallet::force_mint`]."%string]); (Variant "burn"%string [(Field (Some "collection"%string) 4%N (Some "T::CollectionId"%string) []); (Field (Some "item"%string) 4%N (Some "T::ItemId"%string) [])] 5%N ["See [`Pallet::burn`]."%string]); (Variant "transfer"%string [(Field (Some "collection"%string) 4%N (Some "T::CollectionId"%string) []); (Field (Some "item"%string) 4%N (Some "T::ItemId"%string) []); (Field (Some "dest"%string) 233%N (Some "AccountIdLookupOf<T>"%string) [])] 6%N ["See [`Pallet::transfer`]."%string]); (Variant "redeposit"%string [(Field (Some "collection"%string) 4%N (Some "T::CollectionId"%string) []); (Field (Some "items"%string) 133%N (Some "Vec<T::ItemId>"%string) [])] 7%N ["See [`Pallet::redeposit`]."%string]); (Variant "lock_item_transfer"%string [(Field (Some "collection"%string) 4%N (Some "T::CollectionId"%string) []); (Field (Some "item"%string) 4%N (Some "T::ItemId"%string) [])] 8%N ["See [`Pallet::lock_item_transfer`]."%string]); (Variant "unlock_item_transfer"%string [(Field (Some "collection"%string) 4%N (Some "T::CollectionId"%string) []); (Field (Some "item"%string) 4%N (Some "T::ItemId"%string) [])] 9%N ["See [`Pallet::unlock_item_transfer`]."%string]); (Variant "lock_collection"%string [(Field (Some "collection"%string) 4%N (Some "T::CollectionId"%string) []); (Field (Some "lock_settings"%string) 355%N (Some "CollectionSettings"%string) [])] 10%N ["See [`Pallet::lock_collection`]."%string]); (Variant "transfer_ownership"%string [(Field (Some "collection"%string) 4%N (Some "T::CollectionId"%string) []); (Field (Some "new_owner"%string) 233%N (Some "AccountIdLookupOf<T>"%string) [])] 11%N ["See [`Pallet::transfer_ownership`]."%string]); (Variant "set_team"%string [(Field (Some "collection"%string) 4%N (Some "T::CollectionId"%string) []); (Field (Some "issuer"%string) 351%N (Some "Option<AccountIdLookupOf<T>>"%string) []); (Field (Some "admin"%string) 351%N (Some "Option<AccountIdLookupOf<T>>"%string) []); (Field (Some "freezer"%string) 351%N (Some "Option<AccountIdLookupOf<T>>"%string) [])] 12%N ["See [`Pallet::set_team`]."%string]); (Variant "force_collection_owner"%string [(Field (Some "collection"%string) 4%N (Some "T::CollectionId"%string) []); (Field (Some "owner"%string) 233%N (Some "AccountIdLookupOf<T>"%string) [])] 13%N ["See [`Pallet::force_collection_owner`]."%string]); (Variant "force_collection_config"%string [(Field (Some "collection"%string) 4%N (Some "T::CollectionId"%string) []); (Field (Some "config"%string) 354%N (Some "CollectionConfigFor<T, I>"%string) [])] 14%N ["See [`Pallet::force_collection_config`]."%string]); (Variant "approve_transfer"%string [(Field (Some "collection"%string) 4%N (Some "T::CollectionId"%string) []); (Field (Some "item"%string) 4%N (Some "T::ItemId"%string) []); (Field (Some "delegate"%string) 233%N (Some "AccountIdLookupOf<T>"%string) []); (Field (Some "maybe_deadline"%string) 134%N (Some "Option<BlockNumberFor<T>>"%string) [])] 15%N ["See [`Pallet::approve_transfer`]."%string]); (Variant "cancel_approval"%string [(Field (Some "collection"%string) 4%N (Some "T::CollectionId"%string) []); (Field (Some "item"%string) 4%N (Some "T::ItemId"%string) []); (Field (Some "delegate"%string) 233%N (Some "AccountIdLookupOf<T>"%string) [])] 16%N ["See [`Pallet::cancel_approval`]."%string]); (Variant "clear_all_transfer_approvals"%string [(Field (Some "collection"%string) 4%N (Some "T::CollectionId"%string) []); (Field (Some "item"%string) 4%N (Some "T::ItemId"%string) [])] 17%N ["See [`Pallet::clear_all_transfer_approvals`]."%string]); (Variant "lock_item_properties"%string [(Field (Some "collection"%string) 4%N (Some "T::CollectionId"%string) []); (Field (Some "item"%string) 4%N (Some "T::ItemId"%string) []); (Field (Some "lock_metadata"%string) 30%N (Some "bool"%string) []); (Field (Some "lock_attributes"%string) 30%N (Some "bool"%string) [])] 18%N ["See [`Pallet::lock_item_properties`]."%string]); (Variant "set_attribute"%string [(Field (Some "collection"%string) 4%N (Some "T::CollectionId"%string) []); (Field (Some "maybe_item"%string) 134%N (Some "Option<T::ItemId>"%string) []); (Field (Some "namespace"%string) 140%N (Some "AttributeNamespace<T::AccountId>"%string) []); (Field (Some "key"%string) 136%N (Some "BoundedVec<u8, T::KeyLimit>"%string) []); (Field (Some "value"%string) 139%N (Some "BoundedVec<u8, T::ValueLimit>"%string) [])] 19%N ["See [`Pallet::set_attribute`]."%string]); (Variant "force_set_attribute"%string [(Field (Some "set_as"%string) 137%N (Some "Option<T::AccountId>"%string) []); (Field (Some "collection"%string) 4%N (Some "T::CollectionId"%string) []); (Field (Some "maybe_item"%string) 134%N (Some "Option<T::ItemId>"%string) []); (Field (Some "namespace"%string) 140%N (Some "AttributeNamespace<T::AccountId>"%string) []); (Field (Some "key"%string) 136%N (Some "BoundedVec<u8, T::KeyLimit>"%string) []); (Field (Some "value"%string) 139%N (Some "BoundedVec<u8, T::ValueLimit>"%string) [])] 20%N ["See [`Pallet::force_set_attribute`]."%string]); (Variant "clear_attribute"%string [(Field (Some "collection"%string) 4%N (Some "T::CollectionId"%string) []); (Field (Some "maybe_item"%string) 134%N (Some "Option<T::ItemId>"%string) []); (Field (Some "namespace"%string) 140%N (Some "AttributeNamespace<T::AccountId>"%string) []); (Field (Some "key"%string) 136%N (Some "BoundedVec<u8, T::KeyLimit>"%string) [])] 21%N ["See [`Pallet::clear_attribute`]."%string]); (Variant "approve_item_attributes"%string [(Field (Some "collection"%string) 4%N (Some "T::CollectionId"%string) []); (Field (Some "item"%string) 4%N (Some "T::ItemId"%string) []); (Field (Some "delegate"%string) 233%N (Some "AccountIdLookupOf<T>"%string) [])] 22%N ["See [`Pallet::approve_item_attributes`]."%string]); (Variant "cancel_item_attributes_approval"%string [(Field (Some "collection"%string) 4%N (Some "T::CollectionId"%string) []); (Field (Some "item"%string) 4%N (Some "T::ItemId"%string) []); (Field (Some "delegate"%string) 233%N (Some "AccountIdLookupOf<T>"%string) []); (Field (Some "witness"%string) 365%N (Some "CancelAttributesApprovalWitness"%string) [])] 23%N ["See [`Pallet::cancel_item_attributes_approval`]."%string]); (Variant "set_metadata"%string [(Field (Some "collection"%string) 4%N (Some "T::CollectionId"%string) []); (Field (Some "item"%string) 4%N (Some "T::ItemId"%string) []); (Field (Some "data"%string) 139%N (Some "BoundedVec<u8, T::StringLimit>"%string) [])] 24%N ["See [`Pallet::set_metadata`]."%string]); (Variant "clear_metadata"%string [(Field (Some "collection"%string) 4%N (Some "T::CollectionId"%string) []); (Field (Some "item"%string) 4%N (Some "T::ItemId"%string) [])] 25%N ["See [`Pallet::clear_metadata`]."%string]); (Variant "set_collection_metadata"%string [(Field (Some "collection"%string) 4%N (Some "T::CollectionId"%string) []); (Field (Some "data"%string) 139%N (Some "BoundedVec<u8, T::StringLimit>"%string) [])] 26%N ["See [`Pallet::set_collection_metadata`]."%string]); (Variant "clear_collection_metadata"%string [(Field (Some "collection"%string) 4%N (Some "T::CollectionId"%string) [])] 27%N ["See [`Pallet::clear_collection_metadata`]."%string]); (Variant "set_accept_ownership"%string [(Field (Some "maybe_collection"%string) 134%N (Some "Option<T::CollectionId>"%string) [])] 28%N ["See [`Pallet::set_accept_ownership`]."%string]); (Variant "set_collection_max_supply"%string [(Field (Some "collection"%string) 4%N (Some "T::CollectionId"%string) []); (Field (Some "max_supply"%string) 4%N (Some "u32"%string) [])] 29%N ["See [`Pallet::set_collection_max_supply`]."%string]); (Variant "update_mint_settings"%string [(Field (Some "collection"%string) 4%N (Some "T::CollectionId"%string) []); (Field (Some "mint_settings"%string) 357%N (Some "MintSettings<BalanceOf<T, I>, BlockNumberFor<T>, T::CollectionId>"%string) [])] 30%N ["See [`Pallet::update_mint_settings`]."%string]); (Variant "set_price"%string [(Field (Some "collection"%string) 4%N (Some "T::CollectionId"%string) []); (Field (Some "item"%string) 4%N (Some "T::ItemId"%string) []); (Field (Some "price"%string) 352%N (Some "Option<ItemPrice<T, I>>"%string) []); (Field (Some "whitelisted_buyer"%string) 351%N (Some "Option<AccountIdLookupOf<T>>"%string) [])] 31%N ["See [`Pallet::set_price`]."%string]); (Variant "buy_item"%string [(Field (Some "collection"%string) 4%N (Some "T::CollectionId"%string) []); (Field (Some "item"%string) 4%N (Some "T::ItemId"%string) []); (Field (Some "bid_price"%string) 6%N (Some "ItemPrice<T, I>"%string) [])] 32%N ["See [`Pallet::buy_item`]."%string]); (Variant "pay_tips"%string [(Field (Some "tips"%string) 366%N (Some "BoundedVec<ItemTipOf<T, I>, T::MaxTips>"%string) [])] 33%N ["See [`Pallet::pay_tips`]."%string]); (Variant "create_swap"%string [(Field (Some "offered_collection"%string) 4%N (Some "T::CollectionId"%string) []); (Field (Some "offered_item"%string) 4%N (Some "T::ItemId"%string) []); (Field (Some "desired_collection"%string) 4%N (Some "T::CollectionId"%string) []); (Field (Some "maybe_desired_item"%string) 134%N (Some "Option<T::ItemId>"%string) []); (Field (Some "maybe_price"%string) 141%N (Some "Option<PriceWithDirection<ItemPrice<T, I>>>"%string) []); (Field (Some "duration"%string) 4%N (Some "BlockNumberFor<T>"%string) [])] 34%N ["See [`Pallet::create_swap`]."%string]); (Variant "cancel_swap"%string [(Field (Some "offered_collection"%string) 4%N (Some "T::CollectionId"%string) []); (Field (Some "offered_item"%string) 4%N (Some "T::ItemId"%string) [])] 35%N ["See [`Pallet::cancel_swap`]."%string]); (Variant "claim_swap"%string [(Field (Some "send_collection"%string) 4%N (Some "T::CollectionId"%string) []); (Field (Some "send_item"%string) 4%N (Some "T::ItemId"%string) []); (Field (Some "receive_collection"%string) 4%N (Some "T::CollectionId"%string) []); (Field (Some "receive_item"%string) 4%N (Some "T::ItemId"%string) []); (Field (Some "witness_price"%string) 141%N (Some "Option<PriceWithDirection<ItemPrice<T, I>>>"%string) [])] 36%N ["See [`Pallet::claim_swap`]."%string]); (Variant "mint_pre_signed"%string [(Field (Some "mint_data"%string) 369%N (Some "Box<PreSignedMintOf<T, I>>"%string) []); (Field (Some "signature"%string) 370%N (Some "T::OffchainSignature"%string) []); (Field (Some "signer"%string) 0%N (Some "T::AccountId"%string) [])] 37%N ["See [`Pallet::mint_pre_signed`]."%string]); (Variant "set_attributes_pre_signed"%string [(Field (Some "data"%string) 376%N (Some "PreSignedAttributesOf<T, I>"%string) []); (Field (Some "signature"%string) 370%N (Some "T::OffchainSignature"%string) []); (Field (Some "signer"%string) 0%N (Some "T::AccountId"%string) [])] 38%N ["See [`Pallet::set_attributes_pre_signed`]."%string])]) ["Contains a variant per dispatchable extrinsic that this pallet has."%string]).
Definition md_t354 : ty := (Ty ["pallet_nfts"%string; "types"%string; "CollectionConfig"%string] [("Price"%string,(Some 6%N)); ("BlockNumber"%string,(Some 4%N)); ("CollectionId"%string,(Some 4%N))] (TComposite [(Field (Some "settings"%string) 355%N (Some "CollectionSettings"%string) []); (Field (Some "max_supply"%string) 134%N (Some "Option<u32>"%string) []); (Field (Some "mint_settings"%string) 357%N (Some "MintSettings<Price, BlockNumber, CollectionId>"%string) [])]) []).
Definition md_t355 : ty := (Ty ["pallet_nfts"%string; "types"%string; "BitFlags"%string] [("T"%string,(Some 356%N))] (TComposite [(Field None 11%N (Some "CollectionSetting"%string) [])]) []).
Definition md_t356 : ty := (Ty ["pallet_nfts"%string; "types"%string; "CollectionSetting"%string] [] (TVariant [(Variant "TransferableItems"%string [] 1%N []); (Variant "UnlockedMetadata"%string [] 2%N []); (Variant "UnlockedAttributes"%string [] 4%N []); (Variant "UnlockedMaxSupply"%string [] 8%N []); (Variant "DepositRequired"%string [] 16%N [])]) []).
Definition md_t357 : ty := (Ty ["pallet_nfts"%string; "types"%string; "MintSettings"%string] [("Price"%string,(Some 6%N)); ("BlockNumber"%string,(Some 4%N)); ("CollectionId"%string,(Some 4%N))] (TComposite [(Field (Some "mint_type"%string) 358%N (Some "MintType<CollectionId>"%string) []); (Field (Some "price"%string) 352%N (Some "Option<Price>"%string) []); (Field (Some "start_block"%string) 134%N (Some "Option<BlockNumber>"%string) []); (Field (Some "end_block"%string) 134%N (Some "Option<BlockNumber>"%string) []); (Field (Some "default_item_settings"%string) 359%N (Some "ItemSettings"%string) [])]) []).
Definition md_t358 : ty := (Ty ["pallet_nfts"%string; "types"%string; "MintType"%string] [("CollectionId"%string,(Some 4%N))] (TVariant [(Variant "Issuer"%string [] 0%N []); (Variant "Public"%string [] 1%N []); (Variant "HolderOf"%string [(Field None 4%N (Some "CollectionId"%string) [])] 2%N [])]) []).
Definition md_t359 : ty := (Ty ["pallet_nfts"%string; "types"%string; "BitFlags"%string] [("T"%string,(Some 360%N))] (TComposite [(Field None 11%N (Some "ItemSetting"%string) [])]) []).
Definition md_t360 : ty := (Ty ["pallet_nfts"%string; "types"%string; "ItemSetting"%string] [] (TVariant [(Variant "Transferable"%string [] 1%N []); (Variant "UnlockedMetadata"%string [] 2%N []); (Variant "UnlockedAttributes"%string [] 4%N [])]) []).
Definition md_t361 : ty := (Ty ["pallet_nfts"%string; "types"%string; "DestroyWitness"%string] [] (TComposite [(Field (Some "item_metadatas"%string) 40%N (Some "u32"%string) []); (Field (Some "item_configs"%string) 40%N (Some "u32"%string) []); (Field (Some "attributes"%string) 40%N (Some "u32"%string) [])]) []).
Definition md_t362 : ty := (Ty ["Option"%string] [("T"%string,(Some 363%N))] (TVariant [(Variant "None"%string [] 0%N []); (Variant "Some"%string [(Field None 363%N None [])] 1%N [])]) []).
Definition md_t363 : ty := (Ty ["pallet_nfts"%string; "types"%string; "MintWitness"%string] [("ItemId"%string,(Some 4%N)); ("Balance"%string,(Some 6%N))] (TComposite [(Field (Some "owned_item"%string) 134%N (Some "Option<ItemId>"%string) []); (Field (Some "mint_price"%string) 352%N (Some "Option<Balance>"%string) [])]) []).
Definition md_t364 : ty := (Ty ["pallet_nfts"%string; "types"%string; "ItemConfig"%string] [] (TComposite [(Field (Some "settings"%string) 359%N (Some "ItemSettings"%string) [])]) []).
Definition md_t365 : ty := (Ty ["pallet_nfts"%string; "types"%string; "CancelAttributesApprovalWitness"%string] [] (TComposite [(Field (Some "account_attributes"%string) 4%N (Some "u32"%string) [])]) []).
Definition md_t366 : ty := (Ty ["bounded_collections"%string; "bounded_vec"%string; "BoundedVec"%string] [("T"%string,(Some 367%N)); ("S"%string,None)] (TComposite [(Field None 368%N (Some "Vec<T>"%string) [])]) []).
Definition md_t367 : ty := (Ty ["pallet_nfts"%string; "types"%string; "ItemTip"%string] [("CollectionId"%string,(Some 4%N)); ("ItemId"%string,(Some 4%N)); ("AccountId"%string,(Some 0%N)); ("Amount"%string,(Some 6%N))] (TComposite [(Field (Some "collection"%string) 4%N (Some "CollectionId"%string) []); (Field (Some "item"%string) 4%N (Some "ItemId"%string) []); (Field (Some "receiver"%string) 0%N (Some "AccountId"%string) []); (Field (Some "amount"%string) 6%N (Some "Amount"%string) [])]) []).
Definition md_t368 : ty := (Ty [] [] (TSequence 367%N) []).
Definition md_t369 : ty := (Ty ["pallet_nfts"%string; "types"%string; "PreSignedMint"%string] [("CollectionId"%string,(Some 4%N)); ("ItemId"%string,(Some 4%N)); ("AccountId"%string,(Some 0%N)); ("Deadline"%string,(Some 4%N)); ("Balance"%string,(Some 6%N))] (TComposite [(Field (Some "collection"%string) 4%N (Some "CollectionId"%string) []); (Field (Some "item"%string) 4%N (Some "ItemId"%string) []); (Field (Some "attributes"%string) 160%N (Some "Vec<(Vec<u8>, Vec<u8>)>"%string) []); (Field (Some "metadata"%string) 13%N (Some "Vec<u8>"%string) []); (Field (Some "only_account"%string) 137%N (Some "Option<AccountId>"%string) []); (Field (Some "deadline"%string) 4%N (Some "Deadline"%string) []); (Field (Some "mint_price"%string) 352%N (Some "Option<Balance>"%string) [])]) []).
Definition md_t370 : ty := (Ty ["sp_runtime"%string; "MultiSignature"%string] [] (TVariant [(Variant "Ed25519"%string [(Field None 371%N (Some "ed25519::Signature"%string) [])] 0%N []); (Variant "Sr25519"%string [(Field None 373%N (Some "sr25519::Signature"%string) [])] 1%N []); (Variant "Ecdsa"%string [(Field None 374%N (Some "ecdsa::Signature"%string) [])] 2%N [])]) []).
Definition md_t371 : ty := (Ty ["sp_core"%string; "ed25519"%string; "Signature"%string] [] (TComposite [(Field None 372%N (Some "[u8; 64]"%string) [])]) []).
Definition md_t372 : ty := (Ty [] [] (TArray 64%N 2%N) []).
Definition md_t373 : ty := (Ty ["sp_core"%string; "sr25519"%string; "Signature"%string] [] (TComposite [(Field None 372%N (Some "[u8; 64]"%string) [])]) []).
Definition md_t374 : ty := (Ty ["sp_core"%string; "ecdsa"%string; "Signature"%string] [] (TComposite [(Field None 375%N (Some "[u8; SIGNATURE_SERIALIZED_SIZE]"%string) [])]) []).
Definition md_t375 : ty := (Ty [] [] (TArray 65%N 2%N) []).
Definition md_t376 : ty := (Ty ["pallet_nfts"%string; "types"%string; "PreSignedAttributes"%string] [("CollectionId"%string,(Some 4%N)); ("ItemId"%string,(Some 4%N)); ("AccountId"%string,(Some 0%N)); ("Deadline"%string,(Some 4%N))] (TComposite [(Field (Some "collection"%string) 4%N (Some "CollectionId"%string) []); (Field (Some "item"%string) 4%N (Some "ItemId"%string) []); (Field (Some "attributes"%string) 160%N (Some "Vec<(Vec<u8>, Vec<u8>)>"%string) []); (Field (Some "namespace"%string) 140%N (Some "AttributeNamespace<AccountId>"%string) []); (Field (Some "deadline"%string) 4%N (Some "Deadline"%string) [])]) []).
Definition md_t377 : ty := (Ty ["pallet_assets"%string; "pallet"%string; "Call"%string] [("T"%string,None); ("I"%string,None)] (TVariant [(Variant "create"%string [(Field (Some "id"%string) 37%N (Some "T::AssetIdParameter"%string) []); (Field (Some "admin"%string) 233%N (Some "AccountIdLookupOf<T>"%string) []); (Field (Some "min_balance"%string) 6%N (Some "T::Balance"%string) [])] 0%N ["See [`Pallet::create`]."%string]); (Variant "force_create"%string [(Field (Some "id"%string) 37%N (Some "T::AssetIdParameter"%string) []); (Field (Some "owner"%string) 233%N (Some "AccountIdLookupOf<T>"%string) []); (Field (Some "is_sufficient"%string) 30%N (Some "bool"%string) []); (Field (Some "min_balance"%string) 44%N (Some "T::Balance"%string) [])] 1%N ["See [`Pallet::force_create`]."%string]); (Variant "start_destroy"%string [(Field (Some "id"%string) 37%N (Some "T::AssetIdParameter"%string) [])] 2%N ["See [`Pallet::start_destroy`]."%string]); (Variant "destroy_accounts"%string [(Field (Some "id"%string) 37%N (Some "T::AssetIdParameter"%string) [])] 3%N ["See [`Pallet::destroy_accounts`]."%string]); (Variant "destroy_approvals"%string [(Field (Some "id"%string) 37%N (Some "T::AssetIdParameter"%string) [])] 4%N ["See [`Pallet::destroy_approvals`]."%string]); (Variant "finish_destroy"%string [(Field (Some "id"%string) 37%N (Some "T::AssetIdParameter"%string) [])] 5%N ["See [`Pallet::finish_destroy`]."%string]); (Variant "mint"%string [(Field (Some "id"%string) 37%N (Some "T::AssetIdParameter"%string) []); (Field (Some "beneficiary"%string) 233%N (Some "AccountIdLookupOf<T>"%string) []); (Field (Some "amount"%string) 44%N (Some "T::Balance"%string) [])] 6%N ["See [`Pallet::mint`]."%string]); (Variant "burn"%string [(Field (Some "id"%string) 37%N (Some "T::AssetIdParameter"%string) []); (Field (Some "who"%string) 233%N (Some "AccountIdLookupOf<T>"%string) []); (Field (Some "amount"%string) 44%N (Some "T::Balance"%string) [])] 7%N ["See [`Pallet::burn`]."%string]); (Variant "transfer"%string [(Field (Some "id"%string) 37%N (Some "T::AssetIdParameter"%string) []); (Field (Some "target"%string) 233%N (Some "AccountIdLookupOf<T>"%string) []); (Field (Some "amount"%string) 44%N (Some "T::Balance"%string) [])] 8%N ["See [`Pallet::transfer`]."%string]); (Variant "transfer_keep_alive"%string [(Field (Some "id"%string) 37%N (Some "T::AssetIdParameter"%string) []); (Field (Some "target"%string) 233%N (Some "AccountIdLookupOf<T>"%string) []); (Field (Some "amount"%string) 44%N (Some "T::Balance"%string) [])] 9%N ["See [`Pallet::transfer_keep_alive`]."%string]); (Variant "force_transfer"%string [(Field (Some "id"%string) 37%N (Some "T::AssetIdParameter"%string) []); (Field (Some "source"%string) 233%N (Some "AccountIdLookupOf<T>"%string) []); (Field (Some "dest"%string) 233%N (Some "AccountIdLookupOf<T>"%string) []); (Field (Some "amount"%string) 44%N (Some "T::Balance"%string) [])] 10%N ["See [`Pallet::force_transfer`]."%string]); (Variant "freeze"%string [(Field (Some "id"%string) 37%N (Some "T::AssetIdParameter"%string) []); (Field (Some "who"%string) 233%N (Some "AccountIdLookupOf<T>"%string) [])] 11%N ["See [`Pallet::freeze`]."%string]); (Variant "thaw"%string [(Field (Some "id"%string) 37%N (Some "T::AssetIdParameter"%string) []); (Field (Some "who"%string) 233%N (Some "AccountIdLookupOf<T>"%string) [])] 12%N ["See [`Pallet::thaw`]."%string]); (Variant "freeze_asset"%string [(Field (Some "id"%string) 37%N (Some "T::AssetIdParameter"%string) [])] 13%N ["See [`Pallet::freeze_asset`]."%string]); (Variant "thaw_asset"%string [(Field (Some "id"%string) 37%N (Some "T::AssetIdParameter"%string) [])] 14%N ["See [`Pallet::thaw_asset`]."%string]); (Variant "transfer_ownership"%string [(Field (Some "id"%string) 37%N (Some "T::AssetIdParameter"%string) []); (Field (Some "owner"%string) 233%N (Some "AccountIdLookupOf<T>"%string) [])] 15%N ["See [`Pallet::transfer_ownership`]."%string]); (Variant "set_team"%string [(Field (Some "id"%string) 37%N (Some "T::AssetIdParameter"%string) []); (Field (Some "issuer"%string) 233%N (Some "AccountIdLookupOf<T>"%string) []); (Field (Some "admin"%string) 233%N (Some "AccountIdLookupOf<T>"%string) []); (Field (Some "freezer"%string) 233%N (Some "AccountIdLookupOf<T>"%string) [])] 16%N ["See [`Pallet::set_team`]."%string]); (Variant "set_metadata"%string [(Field (Some "id"%string) 37%N (Some "T::AssetIdParameter"%string) []); (Field (Some "name"%string) 13%N (Some "Vec<u8>"%string) []); (Field (Some "symbol"%string) 13%N (Some "Vec<u8>"%string) []); (Field (Some "decimals"%string) 2%N (Some "u8"%string) [])] 17%N ["See [`Pallet::set_metadata`]."%string]); (Variant "clear_metadata"%string [(Field (Some "id"%string) 37%N (Some "T::AssetIdParameter"%string) [])] 18%N ["See [`Pallet::clear_metadata`]."%string]); (Variant "force_set_metadata"%string [(Field (Some "id"%string) 37%N (Some "T::AssetIdParameter"%string) []); (Field (Some "name"%string) 13%N (Some "Vec<u8>"%string) []); (Field (Some "symbol"%string) 13%N (Some "Vec<u8>"%string) []); (Field (Some "decimals"%string) 2%N (Some "u8"%string) []); (Field (Some "is_frozen"%string) 30%N (Some "bool"%string) [])] 19%N ["See [`Pallet::force_set_metadata`]."%string]); (Variant "force_clear_metadata"%string [(Field (Some "id"%string) 37%N (Some "T::AssetIdParameter"%string) [])] 20%N ["See [`Pallet::force_clear_metadata`]."%string]); (Variant "force_asset_status"%string [(Field (Some "id"%string) 37%N (Some "T::AssetIdParameter"%string) []); (Field (Some "owner"%string) 233%N (Some "AccountIdLookupOf<T>"%string) []); (Field (Some "issuer"%string) 233%N (Some "AccountIdLookupOf<T>"%string) []); (Field (Some "admin"%string) 233%N (Some "AccountIdLookupOf<T>"%string) []); (Field (Some "freezer"%string) 233%N (Some "AccountIdLookupOf<T>"%string) []); (Field (Some "min_balance"%string) 44%N (Some "T::Balance"%string) []); (Field (Some "is_sufficient"%string) 30%N (Some "bool"%string) []); (Field (Some "is_frozen"%string) 30%N (Some "bool"%string) [])] 21%N ["See [`Pallet::force_asset_status`]."%string]); (Variant "approve_transfer"%string [(Field (Some "id"%string) 37%N (Some "T::AssetIdParameter"%string) []); (Field (Some "delegate"%string) 233%N (Some "AccountIdLookupOf<T>"%string) []); (Field (Some "amount"%string) 44%N (Some "T::Balance"%string) [])] 22%N ["See [`Pallet::approve_transfer`]."%string]); (Variant "cancel_approval"%string [(Field (Some "id"%string) 37%N (Some "T::AssetIdParameter"%string) []); (Field (Some "delegate"%string) 233%N (Some "AccountIdLookupOf<T>"%string) [])] 23%N ["See [`Pallet::cancel_approval`]."%string]); (Variant "force_cancel_approval"%string [(Field (Some "id"%string) 37%N (Some "T::AssetIdParameter"%string) []); (Field (Some "owner"%string) 233%N (Some "AccountIdLookupOf<T>"%string) []); (Field (Some "delegate"%string) 233%N (Some "AccountIdLookupOf<T>"%string) [])] 24%N ["See [`Pallet::force_cancel_approval`]."%string]); (Variant "transfer_approved"%string [(Field (Some "id"%string) 37%N (Some "T::AssetIdParameter"%string) []); (Field (Some "owner"%string) 233%N (Some "AccountIdLookupOf<T>"%string) []); (Field (Some "destination"%string) 233%N (Some "AccountIdLookupOf<T>"%string) []); (Field (Some "amount"%string) 44%N (Some "T::Balance"%string) [])] 25%N ["See [`Pallet::transfer_approved`]."%string]); (Variant "touch"%string [(Field (Some "id"%string) 37%N (Some "T::AssetIdParameter"%string) [])] 26%N ["See [`Pallet::touch`]."%string]); (Variant "refund"%string [(Field (Some "id"%string) 37%N (Some "T::AssetIdParameter"%string) []); (Field (Some "allow_burn"%string) 30%N (Some "bool"%string) [])] 27%N ["See [`Pallet::refund`]."%string]); (Variant "set_min_balance"%string [(Field (Some "id"%string) 37%N (Some "T::AssetIdParameter"%string) []); (Field (Some "min_balance"%string) 6%N (Some "T::Balance"%string) [])] 28%N ["See [`Pallet::set_min_balance`]."%string]); (Variant "touch_other"%string [(Field (Some "id"%string) 37%N (Some "T::AssetIdParameter"%string) []); (Field (Some "who"%string) 233%N (Some "AccountIdLookupOf<T>"%string) [])] 29%N ["See [`Pallet::touch_other`]."%string]); (Variant "refund_other"%string [(Field (Some "id"%string) 37%N (Some "T::AssetIdParameter"%string) []); (Field (Some "who"%string) 233%N (Some "AccountIdLookupOf<T>"%string) [])] 30%N ["See [`Pallet::refund_other`]."%string]); (Variant "block"%string [(Field (Some "id"%string) 37%N (Some "T::AssetIdParameter"%string) []); (Field (Some "who"%string) 233%N (Some "AccountIdLookupOf<T>"%string) [])] 31%N ["See [`Pallet::block`]."%string])]) ["Contains a variant per dispatchable extrinsic that this pallet has."%string]).
Definition md_t378 : ty := (Ty ["pallet_assets"%string; "pallet"%string; "Call"%string] [("T"%string,None); ("I"%string,None)] (TVariant [(Variant "create"%string [(Field (Some "id"%string) 4%N (Some "T::AssetIdParameter"%string) []); (Field (Some "admin"%string) 233%N (Some "AccountIdLookupOf<T>"%string) []); (Field (Some "min_balance"%string) 6%N (Some "T::Balance"%string) [])] 0%N ["See [`Pallet::create`]."%string]); (Variant "force_create"%string [(Field (Some "id"%string) 4%N (Some "T::AssetIdParameter"%string) []); (Field (Some "owner"%string) 233%N (Some "AccountIdLookupOf<T>"%string) []); (Field (Some "is_sufficient"%string) 30%N (Some "bool"%string) []); (Field (Some "min_balance"%string) 44%N (Some "T::Balance"%string) [])] 1%N ["See [`Pallet::force_create`]."%string]); (Variant "start_destroy"%string [(Field (Some "id"%string) 4%N (Some "T::AssetIdParameter"%string) [])] 2%N ["See [`Pallet::start_destroy`]."%string]); (Variant "destroy_accounts"%string [(Field (Some "id"%string) 4%N (Some "T::AssetIdParameter"%string) [])] 3%N ["See [`Pallet::destroy_accounts`]."%string]); (Variant "destroy_approvals"%string [(Field (Some "id"%string) 4%N (Some "T::AssetIdParameter"%string) [])] 4%N ["See [`Pallet::destroy_approvals`]."%string]); (Variant "finish_destroy"%string [(Field (Some "id"%string) 4%N (Some "T::AssetIdParameter"%string) [])] 5%N ["See [`Pallet::finish_destroy`]."%string]); (Variant "mint"%string [(Field (Some "id"%string) 4%N (Some "T::AssetIdParameter"%string) []); (Field (Some "beneficiary"%string) 233%N (Some "AccountIdLookupOf<T>"%string) []); (Field (Some "amount"%string) 44%N (Some "T::Balance"%string) [])] 6%N ["See [`Pallet::mint`]."%string]); (Variant "burn"%string [(Field (Some "id"%string) 4%N (Some "T::AssetIdParameter"%string) []); (Field (Some "who"%string) 233%N (Some "AccountIdLookupOf<T>"%string) []); (Field (Some "amount"%string) 44%N (Some "T::Balance"%string) [])] 7%N ["See [`Pallet::burn`]."%string]); (Variant "transfer"%string [(Field (Some "id"%string) 4%N (Some "T::AssetIdParameter"%string) []); (Field (Some "target"%string) 233%N (Some "AccountIdLookupOf<T>"%string) []); (Field (Some "amount"%string) 44%N (Some "T::Balance"%string) [])] 8%N ["See [`Pallet::transfer`]."%string]); (Variant "transfer_keep_alive"%string [(Field (Some "id"%string) 4%N (Some "T::AssetIdParameter"%string) []); (Field (Some "target"%string) 233%N (Some "AccountIdLookupOf<T>"%string) []); (Field (Some "amount"%string) 44%N (Some "T::Balance"%string) [])] 9%N ["See [`Pallet::transfer_keep_alive`]."%string]); (Variant "force_transfer"%string [(Field (Some "id"%string) 4%N (Some "T::AssetIdParameter"%string) []); (Field (Some "source"%string) 233%N (Some "AccountIdLookupOf<T>"%string) []); (Field (Some "dest"%string) 233%N (Some "AccountIdLookupOf<T>"%string) []); (Field (Some "amount"%string) 44%N (Some "T::Balance"%string) [])] 10%N ["See [`Pallet::force_transfer`]."%string]); (Variant "freeze"%string [(Field (Some "id"%string) 4%N (Some "T::AssetIdParameter"%string) []); (Field (Some "who"%string) 233%N (Some "AccountIdLookupOf<T>"%string) [])] 11%N ["See [`Pallet::freeze`]."%string]); (Variant "thaw"%string [(Field (Some "id"%string) 4%N (Some "T::AssetIdParameter"%string) []); (Field (Some "who"%string) 233%N (Some "AccountIdLookupOf<T>"%string) [])] 12%N ["See [`Pallet::thaw`]."%string]); (Variant "freeze_asset"%string [(Field (Some "id"%string) 4%N (Some "T::AssetIdParameter"%string) [])] 13%N ["See [`Pallet::freeze_asset`]."%string]); (Variant "thaw_asset"%string [(Field (Some "id"%string) 4%N (Some "T::AssetIdParameter"%string) [])] 14%N ["See [`Pallet::thaw_asset`]."%string]); (Variant "transfer_ownership"%string [(Field (Some "id"%string) 4%N (Some "T::AssetIdParameter"%string) []); (Field (Some "owner"%string) 233%N (Some "AccountIdLookupOf<T>"%string) [])] 15%N ["See [`Pallet::transfer_ownership`]."%string]); (Variant "set_team"%string [(Field (Some "id"%string) 4%N (Some "T::AssetIdParameter"%string) []); (Field (Some "issuer"%string) 233%N (Some "AccountIdLookupOf<T>"%string) []); (Field (Some "admin"%string) 233%N (Some "AccountIdLookupOf<T>"%string) []); (Field (Some "freezer"%string) 233%N (Some "AccountIdLookupOf<T>"%string) [])] 16%N ["See [`Pallet::set_team`]."%string]); (Variant "set_metadata"%string [(Field (Some "id"%string) 4%N (Some "T::AssetIdParameter"%string) []); (Field (Some "name"%string) 13%N (Some "Vec<u8>"%string) []); (Field (Some "symbol"%string) 13%N (Some "Vec<u8>"%string) []); (Field (Some "decimals"%string) 2%N (Some "u8"%string) [])] 17%N ["See [`Pallet::set_metadata`]."%string]); (Variant "clear_metadata"%string [(Field (Some "id"%string) 4%N (Some "T::AssetIdParameter"%string) [])] 18%N ["See [`Pallet::clear_metadata`]."%string]); (Variant "force_set_metadata"%string [(Field (Some "id"%string) 4%N (Some "T::AssetIdParameter"%string) []); (Field (Some "name"%string) 13%N (Some "Vec<u8>"%string) []); (Field (Some "symbol"%string) 13%N (Some "Vec<u8>"%string) []); (Field (Some "decimals"%string) 2%N (Some "u8"%string) []); (Field (Some "is_frozen"%string) 30%N (Some "bool"%string) [])] 19%N ["See [`Pallet::force_set_metadata`]."%string]); (Variant "force_clear_metadata"%string [(Field (Some "id"%string) 4%N (Some "T::AssetIdParameter"%string) [])] 20%N ["See [`Pallet::force_clear_metadata`]."%string]); (Variant "force_asset_status"%string [(Field (Some "id"%string) 4%N (Some "T::AssetIdParameter"%string) []); (Field (Some "owner"%string) 233%N (Some "AccountIdLookupOf<T>"%string) []); (Field (Some "issuer"%string) 233%N (Some "AccountIdLookupOf<T>"%string) []); (Field (Some "admin"%string) 233%N (Some "AccountIdLookupOf<T>"%string) []); (Field (Some "freezer"%string) 233%N (Some "AccountIdLookupOf<T>"%string) []); (Field (Some "min_balance"%string) 44%N (Some "T::Balance"%string) []); (Field (Some "is_sufficient"%string) 30%N (Some "bool"%string) []); (Field (Some "is_frozen"%string) 30%N (Some "bool"%string) [])] 21%N ["See [`Pallet::force_asset_status`]."%string]); (Variant "approve_transfer"%string [(Field (Some "id"%string) 4%N (Some "T::AssetIdParameter"%string) []); (Field (Some "delegate"%string) 233%N (Some "AccountIdLookupOf<T>"%string) []); (Field (Some "amount"%string) 44%N (Some "T::Balance"%string) [])] 22%N ["See [`Pallet::approve_transfer`]."%string]); (Variant "cancel_approval"%string [(Field (Some "id"%string) 4%N (Some "T::AssetIdParameter"%string) []); (Field (Some "delegate"%string) 233%N (Some "AccountIdLookupOf<T>"%string) [])] 23%N ["See [`Pallet::cancel_approval`]."%string]); (Variant "force_cancel_approval"%string [(Field (Some "id"%string) 4%N (Some "T::AssetIdParameter"%string) []); (Field (Some "owner"%string) 233%N (Some "AccountIdLookupOf<T>"%string) []); (Field (Some "delegate"%string) 233%N (Some "AccountIdLookupOf<T>"%string) [])] 24%N ["See [`Pallet::force_cancel_approval`]."%string]); (Variant "transfer_approved"%string [(Field (Some "id"%string) 4%N (Some "T::AssetIdParameter"%string) []); (Field (Some "owner"%string) 233%N (Some "AccountIdLookupOf<T>"%string) []); (Field (Some "destination"%string) 233%N (Some "AccountIdLookupOf<T>"%string) []); (Field (Some "amount"%string) 44%N (Some "T::Balance"%string) [])] 25%N ["See [`Pallet::transfer_approved`]."%string]); (Variant "touch"%string [(Field (Some "id"%string) 4%N (Some "T::AssetIdParameter"%string) [])] 26%N ["See [`Pallet::touch`]."%string]); (Variant "refund"%string [(Field (Some "id"%string) 4%N (Some "T::AssetIdParameter"%string) []); (Field (Some "allow_burn"%string) 30%N (Some "bool"%string) [])] 27%N ["See [`Pallet::refund`]."%string]); (Variant "set_min_balance"%string [(Field (Some "id"%string) 4%N (Some "T::AssetIdParameter"%string) []); (Field (Some "min_balance"%string) 6%N (Some "T::Balance"%string) [])] 28%N ["See [`Pallet::set_min_balance`]."%string]); (Variant "touch_other"%string [(Field (Some "id"%string) 4%N (Some "T::AssetIdParameter"%string) []); (Field (Some "who"%string) 233%N (Some "AccountIdLookupOf<T>"%string) [])] 29%N ["See [`Pallet::touch_other`]."%string]); (Variant "refund_other"%string [(Field (Some "id"%string) 4%N (Some "T::AssetIdParameter"%string) []); (Field (Some "who"%string) 233%N (Some "AccountIdLookupOf<T>"%string) [])] 30%N ["See [`Pallet::refund_other`]."%string]); (Variant "block"%string [(Field (Some "id"%string) 4%N (Some "T::AssetIdParameter"%string) []); (Field (Some "who"%string) 233%N (Some "AccountIdLookupOf<T>"%string) [])] 31%N ["See [`Pallet::block`]."%string])]) ["Contains a variant per dispatchable extrinsic that this pallet has."%string]).
Definition md_t379 : ty := (Ty ["pallet_asset_conversion"%string; "pallet"%string; "Call"%string] [("T"%string,None)] (TVariant [(Variant "create_pool"%string [(Field (Some "asset1"%string) 37%N (Some "Box<T::AssetKind>"%string) []); (Field (Some "asset2"%string) 37%N (Some "Box<T::AssetKind>"%string) [])] 0%N ["See [`Pallet::create_pool`]."%string]); (Variant "add_liquidity"%string [(Field (Some "asset1"%string) 37%N (Some "Box<T::AssetKind>"%string) []); (Field (Some "asset2"%string) 37%N (Some "Box<T::AssetKind>"%string) []); (Field (Some "amount1_desired"%string) 6%N (Some "T::Balance"%string) []); (Field (Some "amount2_desired"%string) 6%N (Some "T::Balance"%string) []); (Field (Some "amount1_min"%string) 6%N (Some "T::Balance"%string) []); (Field (Some "amount2_min"%string) 6%N (Some "T::Balance"%string) []); (Field (Some "mint_to"%string) 0%N (Some "T::AccountId"%string) [])] 1%N ["See [`Pallet::add_liquidity`]."%string]); (Variant "remove_liquidity"%string [(Field (Some "asset1"%string) 37%N (Some "Box<T::AssetKind>"%string) []); (Field (Some "asset2"%string) 37%N (Some "Box<T::AssetKind>"%string) []); (Field (Some "lp_token_burn"%string) 6%N (Some "T::Balance"%string) []); (Field (Some "amount1_min_receive"%string) 6%N (Some "T::Balance"%string) []); (Field (Some "amount2_min_receive"%string) 6%N (Some "T::Balance"%string) []); (Field (Some "withdraw_to"%string) 0%N (Some "T::AccountId"%string) [])] 2%N ["See [`Pallet::remove_liquidity`]."%string]); (Variant "swap_exact_tokens_for_tokens"%string [(Field (Some "path"%string) 380%N (Some "Vec<Box<T::AssetKind>>"%string) []); (Field (Some "amount_in"%string) 6%N (Some "T::Balance"%string) []); (Field (Some "amount_out_min"%string) 6%N (Some "T::Balance"%string) []); (Field (Some "send_to"%string) 0%N (Some "T::AccountId"%string) []); (Field (Some "keep_alive"%string) 30%N (Some "bool"%string) [])] 3%N ["See [`Pallet::swap_exact_tokens_for_tokens`]."%string]); (Variant "swap_tokens_for_exact_tokens"%string [(Field (Some "path"%string) 380%N (Some "Vec<Box<T::AssetKind>>"%string) []); (Field (Some "amount_out"%string) 6%N (Some "T::Balance"%string) []); (Field (Some "amount_in_max"%string) 6%N (Some "T::Balance"%string) []); (Field (Some "send_to"%string) 0%N (Some "T::AccountId"%string) []); (Field (Some "keep_alive"%string) 30%N (Some "bool"%string) [])] 4%N ["See [`Pallet::swap_tokens_for_exact_tokens`]."%string])]) ["Pallet's callable functions."%string]).
Definition md_t380 : ty := (Ty [] [] (TSequence 37%N) []).
Definition md_t381 : ty := (Ty ["asset_hub_polkadot_runtime"%string; "OriginCaller"%string] [] (TVariant [(Variant "system"%string [(Field None 382%N (Some "frame_system::Origin<Runtime>"%string) [])] 0%N []); (Variant "PolkadotXcm"%string [(Field None 383%N (Some "pallet_xcm::Origin"%string) [])] 31%N []); (Variant "CumulusXcm"%string [(Field None 384%N (Some "cumulus_pallet_xcm::Origin"%string) [])] 32%N []); (Variant "Void"%string [(Field None 385%N (Some "self::sp_api_hidden_includes_construct_runtime::hidden_include::
__private::Void"%string) [])] 3%N [])]) []).
Definition md_t382 : ty := (Ty ["frame_support"%string; "dispatch"%string; "RawOrigin"%string] [("AccountId"%string,(Some 0%N))] (TVariant [(Variant "Root"%string [] 0%N []); (Variant "Signed"%string [(Field None 0%N (Some "AccountId"%string) [])] 1%N []); (Variant "None"%string [] 2%N [])]) []).
Definition md_t383 : ty := (Ty ["pallet_xcm"%string; "pallet"%string; "Origin"%string] [] (TVariant [(Variant "Xcm"%string [(Field None 54%N (Some "Location"%string) [])] 0%N []); (Variant "Response"%string [(Field None 54%N (Some "Location"%string) [])] 1%N [])]) []).
Definition md_t384 : ty := (Ty ["cumulus_pallet_xcm"%string; "pallet"%string; "Origin"%string] [] (TVariant [(Variant "Relay"%string [] 0%N []); (Variant "SiblingParachain"%string [(Field None 120%N (Some "ParaId"%string) [])] 1%N [])]) []).
Definition md_t385 : ty := (Ty ["sp_core"%string; "Void"%string] [] (TVariant []) []).
Definition md_t386 : ty := (Ty ["pallet_utility"%string; "pallet"%string; "Error"%string] [("T"%string,None)] (TVariant [(Variant "TooManyCalls"%string [] 0%N ["Too many calls batched."%string])]) ["The `Error` enum of this pallet."%string]).
Definition md_t387 : ty := (Ty [] [] (TTuple [0%N; 1%N]) []).
Definition md_t388 : ty := (Ty ["pallet_multisig"%string; "Multisig"%string] [("BlockNumber"%string,(Some 4%N)); ("Balance"%string,(Some 6%N)); ("AccountId"%string,(Some 0%N)); ("MaxApprovals"%string,None)] (TComposite [(Field (Some "when"%string) 126%N (Some "Timepoint<BlockNumber>"%string) []); (Field (Some "deposit"%string) 6%N (Some "Balance"%string) []); (Field (Some "depositor"%string) 0%N (Some "AccountId"%string) []); (Field (Some "approvals"%string) 389%N (Some "BoundedVec<AccountId, MaxApprovals>"%string) [])]) []).
Definition md_t389 : ty := (Ty ["bounded_collections"%string; "bounded_vec"%string; "BoundedVec"%string] [("T"%string,(Some 0%N)); ("S"%string,None)] (TComposite [(Field None 48%N (Some "Vec<T>"%string) [])]) []).
Definition md_t390 : ty := (Ty ["pallet_multisig"%string; "pallet"%string; "Error"%string] [("T"%string,None)] (TVariant [(Variant "MinimumThreshold"%string [] 0%N ["Threshold must be 2 or greater."%string]); (Variant "AlreadyApproved"%string [] 1%N ["Call is already approved by this signatory."%string]); (Variant "NoApprovalsNeeded"%string [] 2%N ["Call doesn't need any (more) approvals."%string]); (Variant "TooFewSignatories"%string [] 3%N ["There are too few signatories in the list."%string]); (Variant "TooManySignatories"%string [] 4%N ["There are too many signatories in the list."%string]); (Variant "SignatoriesOutOfOrder"%string [] 5%N ["The signatories were provided out of order; they should be ordered."%string]); (Variant "SenderInSignatories"%string [] 6%N ["The sender was contained in the other signatories; it shouldn't be."%string]); (Variant "NotFound"%string [] 7%N ["Multisig operation not found when attempting to cancel."%string]); (Variant "NotOwner"%string [] 8%N ["Only the account that originally created the multisig is able to cancel it."%string]); (Variant "NoTimepoint"%string [] 9%N ["No timepoint was given, yet the multisig operation is already underway."%string]); (Variant "WrongTimepoint"%string [] 10%N ["A different timepoint was given to the multisig operation that is underway."%string]); (Variant "UnexpectedTimepoint"%string [] 11%N ["A timepoint was given, yet no multisig operation is underway."%string]); (Variant "MaxWeightTooLow"%string [] 12%N ["The maximum weight information provided was too low."%string]); (Variant "AlreadyStored"%string [] 13%N ["The data to be stored is already stored."%string])]) ["The `Error` enum of this pallet."%string]).
Definition md_t391 : ty := (Ty [] [] (TTuple [392%N; 6%N]) []).
Definition md_t392 : ty := (Ty ["bounded_collections"%string; "bounded_vec"%string; "BoundedVec"%string] [("T"%string,(Some 393%N)); ("S"%string,None)] (TComposite [(Field None 394%N (Some "Vec<T>"%string) [])]) []).
Definition md_t393 : ty := (Ty ["pallet_proxy"%string; "ProxyDefinition"%string] [("AccountId"%string,(Some 0%N)); ("ProxyType"%string,(Some 128%N)); ("BlockNumber"%string,(Some 4%N))] (TComposite [(Field (Some "delegate"%string) 0%N (Some "AccountId"%string) []); (Field (Some "proxy_type"%string) 128%N (Some "ProxyType"%string) []); (Field (Some "delay"%string) 4%N (Some "BlockNumber"%string) [])]) []).
Definition md_t394 : ty := (Ty [] [] (TSequence 393%N) []).
Definition md_t395 : ty := (Ty [] [] (TTuple [396%N; 6%N]) []).
Definition md_t396 : ty := (Ty ["bounded_collections"%string; "bounded_vec"%string; "BoundedVec"%string] [("T"%string,(Some 397%N)); ("S"%string,None)] (TComposite [(Field None 398%N (Some "Vec<T>"%string) [])]) []).
Definition md_t397 : ty := (Ty ["pallet_proxy"%string; "Announcement"%string] [("AccountId"%string,(Some 0%N)); ("Hash"%string,(Some 12%N)); ("BlockNumber"%string,(Some 4%N))] (TComposite [(Field (Some "real"%string) 0%N (Some "AccountId"%string) []); (Field (Some "call_hash"%string) 12%N (Some "Hash"%string) []); (Field (Some "height"%string) 4%N (Some "BlockNumber"%string) [])]) []).
Definition md_t398 : ty := (Ty [] [] (TSequence 397%N) []).
Definition md_t399 : ty := (Ty ["pallet_proxy"%string; "pallet"%string; "Error"%string] [("T"%string,None)] (TVariant [(Variant "TooMany"%string [] 0%N ["There are too many proxies registered or too many announcements pending."%string]); (Variant "NotFound"%string [] 1%N ["Proxy registration not found."%string]); (Variant "NotProxy"%string [] 2%N ["Sender is not a proxy of the account to be proxied."%string]); (Variant "Unproxyable"%string [] 3%N ["A call which is incompatible with the proxy type's filter was attempted."%string]); (Variant "Duplicate"%string [] 4%N ["Account is already a proxy."%string]); (Variant "NoPermission"%string [] 5%N ["Call may not be made by proxy because it may escalate its privileges."%string]); (Variant "Unannounced"%string [] 6%N ["Announcement, if made at all, was made too recently."%string]); (Variant "NoSelfProxy"%string [] 7%N ["Cannot add self as proxy."%string])]) ["The `Error` enum of this pallet."%string]).
Definition md_t400 : ty := (Ty ["pallet_assets"%string; "types"%string; "AssetDetails"%string] [("Balance"%string,(Some 6%N)); ("AccountId"%string,(Some 0%N)); ("DepositBalance"%string,(Some 6%N))] (TComposite [(Field (Some "owner"%string) 0%N (Some "AccountId"%string) []); (Field (Some "issuer"%string) 0%N (Some "AccountId"%string) []); (Field (Some "admin"%string) 0%N (Some "AccountId"%string) []); (Field (Some "freezer"%string) 0%N (Some "AccountId"%string) []); (Field (Some "supply"%string) 6%N (Some "Balance"%string) []); (Field (Some "deposit"%string) 6%N (Some "DepositBalance"%string) []); (Field (Some "min_balance"%string) 6%N (Some "Balance"%string) []); (Field (Some "is_sufficient"%string) 30%N (Some "bool"%string) []); (Field (Some "accounts"%string) 4%N (Some "u32"%string) []); (Field (Some "sufficients"%string) 4%N (Some "u32"%string) []); (Field (Some "approvals"%string) 4%N (Some "u32"%string) []); (Field (Some "status"%string) 401%N (Some "AssetStatus"%string) [])]) []).
Definition md_t401 : ty := (Ty ["pallet_assets"%string; "types"%string; "AssetStatus"%string] [] (TVariant [(Variant "Live"%string [] 0%N []); (Variant "Frozen"%string [] 1%N []); (Variant "Destroying"%string [] 2%N [])]) []).
Definition md_t402 : ty := (Ty [] [] (TTuple [4%N; 0%N]) []).
Definition md_t403 : ty := (Ty ["pallet_assets"%string; "types"%string; "AssetAccount"%string] [("Balance"%string,(Some 6%N)); ("DepositBalance"%string,(Some 6%N)); ("Extra"%string,(Some 124%N)); ("AccountId"%string,(Some 0%N))] (TComposite [(Field (Some "balance"%string) 6%N (Some "Balance"%string) []); (Field (Some "status"%string) 404%N (Some "AccountStatus"%string) []); (Field (Some "reason"%string) 405%N (Some "ExistenceReason<DepositBalance, AccountId>"%string) []); (Field (Some "extra"%string) 124%N (Some "Extra"%string) [])]) []).
Definition md_t404 : ty := (Ty ["pallet_assets"%string; "types"%string; "AccountStatus"%string] [] (TVariant [(Variant "Liquid"%string [] 0%N []); (Variant "Frozen"%string [] 1%N []); (Variant "Blocked"%string [] 2%N [])]) []).
Definition md_t405 : ty := (Ty ["pallet_assets"%string; "types"%string; "ExistenceReason"%string] [("Balance"%string,(Some 6%N)); ("AccountId"%string,(Some 0%N))] (TVariant [(Variant "Consumer"%string [] 0%N []); (Variant "Sufficient"%string [] 1%N []); (Variant "DepositHeld"%string [(Field None 6%N (Some "Balance"%string) [])] 2%N []); (Variant "DepositRefunded"%string [] 3%N []); (Variant "DepositFrom"%string [(Field None 0%N (Some "AccountId"%string) []); (Field None 6%N (Some "Balance"%string) [])] 4%N [])]) []).
Definition md_t406 : ty := (Ty [] [] (TTuple [4%N; 0%N; 0%N]) []).
Definition md_t407 : ty := (Ty ["pallet_assets"%string; "types"%string; "Approval"%string] [("Balance"%string,(Some 6%N)); ("DepositBalance"%string,(Some 6%N))] (TComposite [(Field (Some "amount"%string) 6%N (Some "Balance"%string) []); (Field (Some "deposit"%string) 6%N (Some "DepositBalance"%string) [])]) []).
Definition md_t408 : ty := (Ty ["pallet_assets"%string; "types"%string; "AssetMetadata"%string] [("DepositBalance"%string,(Some 6%N)); ("BoundedString"%string,(Some 409%N))] (TComposite [(Field (Some "deposit"%string) 6%N (Some "DepositBalance"%string) []); (Field (Some "name"%string) 409%N (Some "BoundedString"%string) []); (Field (Some "symbol"%string) 409%N (Some "BoundedString"%string) []); (Field (Some "decimals"%string) 2%N (Some "u8"%string) []); (Field (Some "is_frozen"%string) 30%N (Some "bool"%string) [])]) []).
Definition md_t409 : ty := (Ty ["bounded_collections"%string; "bounded_vec"%string; "BoundedVec"%string] [("T"%string,(Some 2%N)); ("S"%string,None)] (TComposite [(Field None 13%N (Some "Vec<T>"%string) [])]) []).
Definition md_t410 : ty := (Ty ["pallet_assets"%string; "pallet"%string; "Error"%string] [("T"%string,None); ("I"%string,None)] (TVariant [(Variant "BalanceLow"%string [] 0%N ["Account balance must be greater than or equal to the transfer amount."%string]); (Variant "NoAccount"%string [] 1%N ["The account to alter does not exist."%string]); (Variant "NoPermission"%string [] 2%N ["The signing account has no permission to do the operation."%string]); (Variant "Unknown"%string [] 3%N ["The given asset ID is unknown."%string]); (Variant "Frozen"%string [] 4%N ["The origin account is frozen."%string]); (Variant "InUse"%string [] 5%N ["The asset ID is already taken."%string]); (Variant "BadWitness"%string [] 6%N ["Invalid witness data given."%string]); (Variant "MinBalanceZero"%string [] 7%N ["Minimum balance should be non-zero."%string]); (Variant "UnavailableConsumer"%string [] 8%N ["Unable to increment the consumer reference counters on the account. Either no provider"%string; "reference exists to allow a non-zero balance of a non-self-sufficient asset, or one"%string; "fewer then the maximum number of consumers has been reached."%string]); (Variant "BadMetadata"%string [] 9%N ["Invalid metadata given."%string]); (Variant "Unapproved"%string [] 10%N ["No approval exists that would allow the transfer."%string]); (Variant "WouldDie"%string [] 11%N ["The source account would not survive the transfer and it needs to stay alive."%string]); (Variant "AlreadyExists"%string [] 12%N ["The asset-account already exists."%string]); (Variant "NoDeposit"%string [] 13%N ["The asset-account doesn't have an associated deposit."%string]); (Variant "WouldBurn"%string [] 14%N ["The operation would result in funds being burned."%string]); (Variant "LiveAsset"%string [] 15%N ["The asset is a live asset and is actively being used. Usually emit for operations such"%string; "as `start_destroy` which require the asset to be in a destroying state."%string]); (Variant "AssetNotLive"%string [] 16%N ["The asset is not live, and likely being destroyed."%string]); (Variant "IncorrectStatus"%string [] 17%N ["The asset status is not the expected status."%string]); (Variant "NotFrozen"%string [] 18%N ["The asset should be frozen before the given operation."%string]); (Variant "CallbackFailed"%string [] 19%N ["Callback action resulted in error"%string])]) ["The `Error` enum of this pallet."%string]).
Definition md_t411 : ty := (Ty ["pallet_uniques"%string; "types"%string; "CollectionDetails"%string] [("AccountId"%string,(Some 0%N)); ("DepositBalance"%string,(Some 6%N))] (TComposite [(Field (Some "owner"%string) 0%N (Some "AccountId"%string) []); (Field (Some "issuer"%string) 0%N (Some "AccountId"%string) []); (Field (Some "admin"%string) 0%N (Some "AccountId"%string) []); (Field (Some "freezer"%string) 0%N (Some "AccountId"%string) []); (Field (Some "total_deposit"%string) 6%N (Some "DepositBalance"%string) []); (Field (Some "free_holding"%string) 30%N (Some "bool"%string) []); (Field (Some "items"%string) 4%N (Some "u32"%string) []); (Field (Some "item_metadatas"%string) 4%N (Some "u32"%string) []); (Field (Some "attributes"%string) 4%N (Some "u32"%string) []); (Field (Some "is_frozen"%string) 30%N (Some "bool"%string) [])]) []).
Definition md_t412 : ty := (Ty [] [] (TTuple [0%N; 4%N; 4%N]) []).
Definition md_t413 : ty := (Ty [] [] (TTuple [0%N; 4%N]) []).
Definition md_t414 : ty := (Ty ["pallet_uniques"%string; "types"%string; "ItemDetails"%string] [("AccountId"%string,(Some 0%N)); ("DepositBalance"%string,(Some 6%N))] (TComposite [(Field (Some "owner"%string) 0%N (Some "AccountId"%string) []); (Field (Some "approved"%string) 137%N (Some "Option<AccountId>"%string) []); (Field (Some "is_frozen"%string) 30%N (Some "bool"%string) []); (Field (Some "deposit"%string) 6%N (Some "DepositBalance"%string) [])]) []).
Definition md_t415 : ty := (Ty ["pallet_uniques"%string; "types"%string; "CollectionMetadata"%string] [("DepositBalance"%string,(Some 6%N)); ("StringLimit"%string,None)] (TComposite [(Field (Some "deposit"%string) 6%N (Some "DepositBalance"%string) []); (Field (Some "data"%string) 132%N (Some "BoundedVec<u8, StringLimit>"%string) []); (Field (Some "is_frozen"%string) 30%N (Some "bool"%string) [])]) []).
Definition md_t416 : ty := (Ty ["pallet_uniques"%string; "types"%string; "ItemMetadata"%string] [("DepositBalance"%string,(Some 6%N)); ("StringLimit"%string,None)] (TComposite [(Field (Some "deposit"%string) 6%N (Some "DepositBalance"%string) []); (Field (Some "data"%string) 132%N (Some "BoundedVec<u8, StringLimit>"%string) []); (Field (Some "is_frozen"%string) 30%N (Some "bool"%string) [])]) []).
Definition md_t417 : ty := (Ty [] [] (TTuple [4%N; 134%N; 135%N]) []).
Definition md_t418 : ty := (Ty [] [] (TTuple [136%N; 6%N]) []).
Definition md_t419 : ty := (Ty [] [] (TTuple [6%N; 137%N]) []).
Definition md_t420 : ty := (Ty ["pallet_uniques"%string; "pallet"%string; "Error"%string] [("T"%string,None); ("I"%string,None)] (TVariant [(Variant "NoPermission"%string [] 0%N ["The signing account has no permission to do the operation."%string]); (Variant "UnknownCollection"%string [] 1%N ["The given item ID is unknown."%string]); (Variant "AlreadyExists"%string [] 2%N ["The item ID has already been used for an item."%string]); (Variant "WrongOwner"%string [] 3%N ["The owner turned out to be different to what was expected."%string]); (Variant "BadWitness"%string [] 4%N ["Invalid witness data given."%string]); (Variant "InUse"%string [] 5%N ["The item ID is already taken."%string]); (Variant "Frozen"%string [] 6%N ["The item or collection is frozen."%string]); (Variant "WrongDelegate"%string [] 7%N ["The delegate turned out to be different to what was expected."%string]); (Variant "NoDelegate"%string [] 8%N ["There is no delegate approved."%string]); (Variant "Unapproved"%string [] 9%N ["No approval exists that would allow the transfer."%string]); (Variant "Unaccepted"%string [] 10%N ["The named owner has not signed ownership of the collection is acceptable."%string]); (Variant "Locked"%string [] 11%N ["The item is locked."%string]); (Variant "MaxSupplyReached"%string [] 12%N ["All items have been minted."%string]); (Variant "MaxSupplyAlreadySet"%string [] 13%N ["The max supply has already been set."%string]); (Variant "MaxSupplyTooSmall"%string [] 14%N ["The provided max supply is less to the amount of items a collection already has."%string]); (Variant "UnknownItem"%string [] 15%N ["The given item ID is unknown."%string]); (Variant "NotForSale"%string [] 16%N ["Item is not for sale."%string]); (Variant "BidTooLow"%string [] 17%N ["The provided bid is too low."%string])]) ["The `Error` enum of this pallet."%string]).
Definition md_t421 : ty := (Ty ["pallet_nfts"%string; "types"%string; "CollectionDetails"%string] [("AccountId"%string,(Some 0%N)); ("DepositBalance"%string,(Some 6%N))] (TComposite [(Field (Some "owner"%string) 0%N (Some "AccountId"%string) []); (Field (Some "owner_deposit"%string) 6%N (Some "DepositBalance"%string) []); (Field (Some "items"%string) 4%N (Some "u32"%string) []); (Field (Some "item_metadatas"%string) 4%N (Some "u32"%string) []); (Field (Some "item_configs"%string) 4%N (Some "u32"%string) []); (Field (Some "attributes"%string) 4%N (Some "u32"%string) [])]) []).
Definition md_t422 : ty := (Ty ["pallet_nfts"%string; "types"%string; "BitFlags"%string] [("T"%string,(Some 423%N))] (TComposite [(Field None 2%N (Some "CollectionRole"%string) [])]) []).
Definition md_t423 : ty := (Ty ["pallet_nfts"%string; "types"%string; "CollectionRole"%string] [] (TVariant [(Variant "Issuer"%string [] 1%N []); (Variant "Freezer"%string [] 2%N []); (Variant "Admin"%string [] 4%N [])]) []).
Definition md_t424 : ty := (Ty ["pallet_nfts"%string; "types"%string; "ItemDetails"%string] [("AccountId"%string,(Some 0%N)); ("Deposit"%string,(Some 425%N)); ("Approvals"%string,(Some 426%N))] (TComposite [(Field (Some "owner"%string) 0%N (Some "AccountId"%string) []); (Field (Some "approvals"%string) 426%N (Some "Approvals"%string) []); (Field (Some "deposit"%string) 425%N (Some "Deposit"%string) [])]) []).
Definition md_t425 : ty := (Ty ["pallet_nfts"%string; "types"%string; "ItemDeposit"%string] [("DepositBalance"%string,(Some 6%N)); ("AccountId"%string,(Some 0%N))] (TComposite [(Field (Some "account"%string) 0%N (Some "AccountId"%string) []); (Field (Some "amount"%string) 6%N (Some "DepositBalance"%string) [])]) []).
Definition md_t426 : ty := (Ty ["bounded_collections"%string; "bounded_btree_map"%string; "BoundedBTreeMap"%string] [("K"%string,(Some 0%N)); ("V"%string,(Some 134%N)); ("S"%string,None)] (TComposite [(Field None 427%N (Some "BTreeMap<K, V>"%string) [])]) []).
Definition md_t427 : ty := (Ty ["BTreeMap"%string] [("K"%string,(Some 0%N)); ("V"%string,(Some 134%N))] (TComposite [(Field None 428%N None [])]) []).
Definition md_t428 : ty := (Ty [] [] (TSequence 429%N) []).
Definition md_t429 : ty := (Ty [] [] (TTuple [0%N; 134%N]) []).
Definition md_t430 : ty := (Ty ["pallet_nfts"%string; "types"%string; "CollectionMetadata"%string] [("Deposit"%string,(Some 6%N)); ("StringLimit"%string,None)] (TComposite [(Field (Some "deposit"%string) 6%N (Some "Deposit"%string) []); (Field (Some "data"%string) 139%N (Some "BoundedVec<u8, StringLimit>"%string) [])]) []).
Definition md_t431 : ty := (Ty ["pallet_nfts"%string; "types"%string; "ItemMetadata"%string] [("Deposit"%string,(Some 432%N)); ("StringLimit"%string,None)] (TComposite [(Field (Some "deposit"%string) 432%N (Some "Deposit"%string) []); (Field (Some "data"%string) 139%N (Some "BoundedVec<u8, StringLimit>"%string) [])]) []).
Definition md_t432 : ty := (Ty ["pallet_nfts"%string; "types"%string; "ItemMetadataDeposit"%string] [("DepositBalance"%string,(Some 6%N)); ("AccountId"%string,(Some 0%N))] (TComposite [(Field (Some "account"%string) 137%N (Some "Option<AccountId>"%string) []); (Field (Some "amount"%string) 6%N (Some "DepositBalance"%string) [])]) []).
Definition md_t433 : ty := (Ty [] [] (TTuple [4%N; 134%N; 140%N; 136%N]) []).
Definition md_t434 : ty := (Ty [] [] (TTuple [139%N; 435%N]) []).
Definition md_t435 : ty := (Ty ["pallet_nfts"%string; "types"%string; "AttributeDeposit"%string] [("DepositBalance"%string,(Some 6%N)); ("AccountId"%string,(Some 0%N))] (TComposite [(Field (Some "account"%string) 137%N (Some "Option<AccountId>"%string) []); (Field (Some "amount"%string) 6%N (Some "DepositBalance"%string) [])]) []).
Definition md_t436 : ty := (Ty ["bounded_collections"%string; "bounded_btree_set"%string; "BoundedBTreeSet"%string] [("T"%string,(Some 0%N)); ("S"%string,None)] (TComposite [(Field None 437%N (Some "BTreeSet<T>"%string) [])]) []).
Definition md_t437 : ty := (Ty ["BTreeSet"%string] [("T"%string,(Some 0%N))] (TComposite [(Field None 48%N None [])]) []).
Definition md_t438 : ty := (Ty ["pallet_nfts"%string; "types"%string; "PendingSwap"%string] [("CollectionId"%string,(Some 4%N)); ("ItemId"%string,(Some 4%N)); ("ItemPriceWithDirection"%string,(Some 142%N)); ("Deadline"%string,(Some 4%N))] (TComposite [(Field (Some "desired_collection"%string) 4%N (Some "CollectionId"%string) []); (Field (Some "desired_item"%string) 134%N (Some "Option<ItemId>"%string) []); (Field (Some "price"%string) 141%N (Some "Option<ItemPriceWithDirection>"%string) []); (Field (Some "deadline"%string) 4%N (Some "Deadline"%string) [])]) []).
Definition md_t439 : ty := (Ty ["pallet_nfts"%string; "types"%string; "BitFlags"%string] [("T"%string,(Some 440%N))] (TComposite [(Field None 11%N (Some "PalletFeature"%string) [])]) []).
Definition md_t440 : ty := (Ty ["pallet_nfts"%string; "types"%string; "PalletFeature"%string] [] (TVariant [(Variant "Trading"%string [] 1%N []); (Variant "Attributes"%string [] 2%N []); (Variant "Approvals"%string [] 4%N []); (Variant "Swaps"%string [] 8%N [])]) []).
Definition md_t441 : ty := (Ty ["pallet_nfts"%string; "pallet"%string; "Error"%string] [("T"%string,None); ("I"%string,None)] (TVariant [(Variant "NoPermission"%string [] 0%N ["The signing account has no permission to do the operation."%string]); (Variant "UnknownCollection"%string [] 1%N ["The given item ID is unknown."%string]); (Variant "AlreadyExists"%string [] 2%N ["The item ID has already been used for an item."%string]); (Variant "ApprovalExpired"%string [] 3%N ["The approval had a deadline that expired, so the approval isn't valid anymore."%string]); (Variant "WrongOwner"%string [] 4%N ["The owner turned out to be different to what was expected."%string]); (Variant "BadWitness"%string [] 5%N ["The witness data given does not match the current state of the chain."%string]); (Variant "CollectionIdInUse"%string [] 6%N ["Collection ID is already taken."%string]); (Variant "ItemsNonTransferable"%string [] 7%N ["Items within that collection are non-transferable."%string]); (Variant "NotDelegate"%string [] 8%N ["The provided account is not a delegate."%string]); (Variant "WrongDelegate"%string [] 9%N ["The delegate turned out to be different to what was expected."%string]); (Variant "Unapproved"%string [] 10%N ["No approval exists that would allow the transfer."%string]); (Variant "Unaccepted"%string [] 11%N ["The named owner has not signed ownership acceptance of the collection."%string]); (Variant "ItemLocked"%string [] 12%N ["The item is locked (non-transferable)."%string]); (Variant "LockedItemAttributes"%string [] 13%N ["Item's attributes are locked."%string]); (Variant "LockedCollectionAttributes"%string [] 14%N ["Collection's attributes are locked."%string]); (Variant "LockedItemMetadata"%string [] 15%N ["Item's metadata is locked."%string]); (Variant "LockedCollectionMetadata"%string [] 16%N ["Collection's metadata is locked."%string]); (Variant "MaxSupplyReached"%string [] 17%N ["All items have been minted."%string]); (Variant "MaxSupplyLocked"%string [] 18%N ["The max supply is locked and can't be changed."%string]); (Variant "MaxSupplyTooSmall"%string [] 19%N ["The provided max supply is less than the number of items a collection already has."%string]); (Variant "UnknownItem"%string [] 20%N ["The given item ID is unknown."%string]); (Variant "UnknownSwap"%string [] 21%N ["Swap doesn't exist."%string]); (Variant "MetadataNotFound"%string [] 22%N ["The given item has no metadata set."%string]); (Variant "AttributeNotFound"%string [] 23%N ["The provided attribute can't be found."%string]); (Variant "NotForSale"%string [] 24%N ["Item is not for sale."%string]); (Variant "BidTooLow"%string [] 25%N ["The provided bid is too low."%string]); (Variant "ReachedApprovalLimit"%string [] 26%N ["The item has reached its approval limit."%string]); (Variant "DeadlineExpired"%string [] 27%N ["The deadline has already expired."%string]); (Variant "WrongDuration"%string [] 28%N ["The duration provided should be less than or equal to `MaxDeadlineDuration`."%string]); (Variant "MethodDisabled"%string [] 29%N ["The method is disabled by system settings."%string]); (Variant "WrongSetting"%string [] 30%N ["The provided setting can't be set."%string]); (Variant "InconsistentItemConfig"%string [] 31%N ["Item's config already exists and should be equal to the provided one."%string]); (Variant "NoConfig"%string [] 32%N ["Config for a collection or an item can't be found."%string]); (Variant "RolesNotCleared"%string [] 33%N ["Some roles were not cleared."%string]); (Variant "MintNotStarted"%string [] 34%N ["Mint has not started yet."%string]); (Variant "MintEnded"%string [] 35%N ["Mint has already ended."%string]); (Variant "AlreadyClaimed"%string [] 36%N ["The provided Item was already used for claiming."%string]); (Variant "IncorrectData"%string [] 37%N ["The provided data is incorrect."%string]); (Variant "WrongOrigin"%string [] 38%N ["The extrinsic was sent by the wrong origin."%string]); (Variant "WrongSignature"%string [] 39%N ["The provided signature is incorrect."%string]); (Variant "IncorrectMetadata"%string [] 40%N ["The provided metadata might be too long."%string]); (Variant "MaxAttributesLimitReached"%string [] 41%N ["Can't set more attributes per one call."%string]); (Variant "WrongNamespace"%string [] 42%N ["The provided namespace isn't supported in this call."%string]); (Variant "CollectionNotEmpty"%string [] 43%N ["Can't delete non-empty collections."%string]); (Variant "WitnessRequired"%string [] 44%N ["The witness data should be provided."%string])]) ["The `Error` enum of this pallet."%string]).
Definition md_t442 : ty := (Ty [] [] (TTuple [37%N; 0%N]) []).
Definition md_t443 : ty := (Ty [] [] (TTuple [37%N; 0%N; 0%N]) []).
Definition md_t444 : ty := (Ty ["pallet_assets"%string; "types"%string; "AssetMetadata"%string] [("DepositBalance"%string,(Some 6%N)); ("BoundedString"%string,(Some 445%N))] (TComposite [(Field (Some "deposit"%string) 6%N (Some "DepositBalance"%string) []); (Field (Some "name"%string) 445%N (Some "BoundedString"%string) []); (Field (Some "symbol"%string) 445%N (Some "BoundedString"%string) []); (Field (Some "decimals"%string) 2%N (Some "u8"%string) []); (Field (Some "is_frozen"%string) 30%N (Some "bool"%string) [])]) []).
Definition md_t445 : ty := (Ty ["bounded_collections"%string; "bounded_vec"%string; "BoundedVec"%string] [("T"%string,(Some 2%N)); ("S"%string,None)] (TComposite [(Field None 13%N (Some "Vec<T>"%string) [])]) []).
Definition md_t446 : ty := (Ty ["pallet_assets"%string; "pallet"%string; "Error"%string] [("T"%string,None); ("I"%string,None)] (TVariant [(Variant "BalanceLow"%string [] 0%N ["Account balance must be greater than or equal to the transfer amount."%string]); (Variant "NoAccount"%string [] 1%N ["The account to alter does not exist."%string]); (Variant "NoPermission"%string [] 2%N ["The signing account has no permission to do the operation."%string]); (Variant "Unknown"%string [] 3%N ["The given asset ID is unknown."%string]); (Variant "Frozen"%string [] 4%N ["The origin account is frozen."%string]); (Variant "InUse"%string [] 5%N ["The asset ID is already taken."%string]); (Variant "BadWitness"%string [] 6%N ["Invalid witness data given."%string]); (Variant "MinBalanceZero"%string [] 7%N ["Minimum balance should be non-zero."%string]); (Variant "UnavailableConsumer"%string [] 8%N ["Unable to increment the consumer reference counters on the account. Either no provider"%string; "reference exists to allow a non-zero balance of a non-self-sufficient asset, or one"%string; "fewer then the maximum number of consumers has been reached."%string]); (Variant "BadMetadata"%string [] 9%N ["Invalid metadata given."%string]); (Variant "Unapproved"%string [] 10%N ["No approval exists that would allow the transfer."%string]); (Variant "WouldDie"%string [] 11%N ["The source account would not survive the transfer and it needs to stay alive."%string]); (Variant "AlreadyExists"%string [] 12%N ["The asset-account already exists."%string]); (Variant "NoDeposit"%string [] 13%N ["The asset-account doesn't have an associated deposit."%string]); (Variant "WouldBurn"%string [] 14%N ["The operation would result in funds being burned."%string]); (Variant "LiveAsset"%string [] 15%N ["The asset is a live asset and is actively being used. Usually emit for operations such"%string; "as `start_destroy` which require the asset to be in a destroying state."%string]); (Variant "AssetNotLive"%string [] 16%N ["The asset is not live, and likely being destroyed."%string]); (Variant "IncorrectStatus"%string [] 17%N ["The asset status is not the expected status."%string]); (Variant "NotFrozen"%string [] 18%N ["The asset should be frozen before the given operation."%string]); (Variant "CallbackFailed"%string [] 19%N ["Callback action resulted in error"%string])]) ["The `Error` enum of this pallet."%string]).
Definition md_t447 : ty := (Ty ["pallet_assets"%string; "types"%string; "AssetMetadata"%string] [("DepositBalance"%string,(Some 6%N)); ("BoundedString"%string,(Some 448%N))] (TComposite [(Field (Some "deposit"%string) 6%N (Some "DepositBalance"%string) []); (Field (Some "name"%string) 448%N (Some "BoundedString"%string) []); (Field (Some "symbol"%string) 448%N (Some "BoundedString"%string) []); (Field (Some "decimals"%string) 2%N (Some "u8"%string) []); (Field (Some "is_frozen"%string) 30%N (Some "bool"%string) [])]) []).
Definition md_t448 : ty := (Ty ["bounded_collections"%string; "bounded_vec"%string; "BoundedVec"%string] [("T"%string,(Some 2%N)); ("S"%string,None)] (TComposite [(Field None 13%N (Some "Vec<T>"%string) [])]) []).
Definition md_t449 : ty := (Ty ["pallet_assets"%string; "pallet"%string; "Error"%string] [("T"%string,None); ("I"%string,None)] (TVariant [(Variant "BalanceLow"%string [] 0%N ["Account balance must be greater than or equal to the transfer amount."%string]); (Variant "NoAccount"%string [] 1%N ["The account to alter does not exist."%string]); (Variant "NoPermission"%string [] 2%N ["The signing account has no permission to do the operation."%string]); (Variant "Unknown"%string [] 3%N ["The given asset ID is unknown."%string]); (Variant "Frozen"%string [] 4%N ["The origin account is frozen."%string]); (Variant "InUse"%string [] 5%N ["The asset ID is already taken."%string]); (Variant "BadWitness"%string [] 6%N ["Invalid witness data given."%string]); (Variant "MinBalanceZero"%string [] 7%N ["Minimum balance should be non-zero."%string]); (Variant "UnavailableConsumer"%string [] 8%N ["Unable to increment the consumer reference counters on the account. Either no provider"%string; "reference exists to allow a non-zero balance of a non-self-sufficient asset, or one"%string; "fewer then the maximum number of consumers has been reached."%string]); (Variant "BadMetadata"%string [] 9%N ["Invalid metadata given."%string]); (Variant "Unapproved"%string [] 10%N ["No approval exists that would allow the transfer."%string]); (Variant "WouldDie"%string [] 11%N ["The source account would not survive the transfer and it needs to stay alive."%string]); (Variant "AlreadyExists"%string [] 12%N ["The asset-account already exists."%string]); (Variant "NoDeposit"%string [] 13%N ["The asset-account doesn't have an associated deposit."%string]); (Variant "WouldBurn"%string [] 14%N ["The operation would result in funds being burned."%string]); (Variant "LiveAsset"%string [] 15%N ["The asset is a live asset and is actively being used. Usually emit for operations such"%string; "as `start_destroy` which require the asset to be in a destroying state."%string]); (Variant "AssetNotLive"%string [] 16%N ["The asset is not live, and likely being destroyed."%string]); (Variant "IncorrectStatus"%string [] 17%N ["The asset status is not the expected status."%string]); (Variant "NotFrozen"%string [] 18%N ["The asset should be frozen before the given operation."%string]); (Variant "CallbackFailed"%string [] 19%N ["Callback action resulted in error"%string])]) ["The `Error` enum of this pallet."%string]).
Definition md_t450 : ty := (Ty ["pallet_asset_conversion"%string; "types"%string; "PoolInfo"%string] [("PoolAssetId"%string,(Some 4%N))] (TComposite [(Field (Some "lp_token"%string) 4%N (Some "PoolAssetId"%string) [])]) []).
Definition md_t451 : ty := (Ty ["frame_support"%string; "PalletId"%string] [] (TComposite [(Field None 76%N (Some "[u8; 8]"%string) [])]) []).
Definition md_t452 : ty := (Ty ["pallet_asset_conversion"%string; "pallet"%string; "Error"%string] [("T"%string,None)] (TVariant [(Variant "InvalidAssetPair"%string [] 0%N ["Provided asset pair is not supported for pool."%string]); (Variant "PoolExists"%string [] 1%N ["Pool already exists."%string]); (Variant "WrongDesiredAmount"%string [] 2%N ["Desired amount can't be zero."%string]); (Variant "AmountOneLessThanMinimal"%string [] 3%N ["Provided amount should be greater than or equal to the existential deposit/asset's"%string; "minimal amount."%string]); (Variant "AmountTwoLessThanMinimal"%string [] 4%N ["Provided amount should be greater than or equal to the existential deposit/asset's"%string; "minimal amount."%string]); (Variant "ReserveLeftLessThanMinimal"%string [] 5%N ["Reserve needs to always be greater than or equal to the existential deposit/asset's"%string; "minimal amount."%string]); (Variant "AmountOutTooHigh"%string [] 6%N ["Desired amount can't be equal to the pool reserve."%string]); (Variant "PoolNotFound"%string [] 7%N ["The pool doesn't exist."%string]); (Variant "Overflow"%string [] 8%N ["An overflow happened."%string]); (Variant "AssetOneDepositDidNotMeetMinimum"%string [] 9%N ["The minimal amount requirement for the first token in the pair wasn't met."%string]); (Variant "AssetTwoDepositDidNotMeetMinimum"%string [] 10%N ["The minimal amount requirement for the second token in the pair wasn't met."%string]); (Variant "AssetOneWithdrawalDidNotMeetMinimum"%string [] 11%N ["The minimal amount requirement for the first token in the pair wasn't met."%string]); (Variant "AssetTwoWithdrawalDidNotMeetMinimum"%string [] 12%N ["The minimal amount requirement for the second token in the pair wasn't met."%string]); (Variant "OptimalAmountLessThanDesired"%string [] 13%N ["Optimal calculated amount is less than desired."%string]); (Variant "InsufficientLiquidityMinted"%string [] 14%N ["Insufficient liquidity minted."%string]); (Variant "ZeroLiquidity"%string [] 15%N ["Requested liquidity can't be zero."%string]); (Variant "ZeroAmount"%string [] 16%N ["Amount can't be zero."%string]); (Variant "ProvidedMinimumNotSufficientForSwap"%string [] 17%N ["Calculated amount out is less than provided minimum amount."%string]); (Variant "ProvidedMaximumNotSufficientForSwap"%string [] 18%N ["Provided maximum amount is not sufficient for swap."%string]); (Variant "InvalidPath"%string [] 19%N ["The provided path must consists of 2 assets at least."%string]); (Variant "NonUniquePath"%string [] 20%N ["The provided path must consists of unique assets."%string]); (Variant "IncorrectPoolAssetId"%string [] 21%N ["It was not possible to get or increment the Id of the pool."%string]); (Variant "BelowMinimum"%string [] 22%N ["The destination account cannot exist with the swapped funds."%string])]) ["The `Error` enum of this pallet."%string]).
Definition md_t453 : ty := (Ty [] [] (TTuple [454%N; 455%N; 456%N; 457%N; 458%N; 460%N; 461%N; 462%N]) []).
Definition md_t454 : ty := (Ty ["frame_system"%string; "extensions"%string; "check_non_zero_sender"%string; "CheckNonZeroSender"%string] [("T"%string,None)] (TComposite []) []).
Definition md_t455 : ty := (Ty ["frame_system"%string; "extensions"%string; "check_spec_version"%string; "CheckSpecVersion"%string] [("T"%string,None)] (TComposite []) []).
Definition md_t456 : ty := (Ty ["frame_system"%string; "extensions"%string; "check_tx_version"%string; "CheckTxVersion"%string] [("T"%string,None)] (TComposite []) []).
Definition md_t457 : ty := (Ty ["frame_system"%string; "extensions"%string; "check_genesis"%string; "CheckGenesis"%string] [("T"%string,None)] (TComposite []) []).
Definition md_t458 : ty := (Ty ["frame_system"%string; "extensions"%string; "check_mortality"%string; "CheckMortality"%string] [("T"%string,None)] (TComposite [(Field None 459%N (Some "Era"%string) [])]) []).
Definition md_t459 : ty := (Ty ["sp_runtime"%string; "generic"%string; "era"%string; "Era"%string] [] (TVariant [(Variant "Immortal"%string [] 0%N []); (Variant "Mortal1"%string [(Field None 2%N None [])] 1%N []); (Variant "Mortal2"%string [(Field None 2%N None [])] 2%N []); (Variant "Mortal3"%string [(Field None 2%N None [])] 3%N []); (Variant "Mortal4"%string [(Field None 2%N None [])] 4%N []); (Variant "Mortal5"%string [(Field None 2%N None [])] 5%N []); (Variant "Mortal6"%string [(Field None 2%N None [])] 6%N []); (Variant "Mortal7"%string [(Field None 2%N None [])] 7%N []); (Variant "Mortal8"%string [(Field None 2%N None [])] 8%N []); (Variant "Mortal9"%string [(Field None 2%N None [])] 9%N []); (Variant "Mortal10"%string [(Field None 2%N None [])] 10%N []); (Variant "Mortal11"%string [(Field None 2%N None [])] 11%N []); (Variant "Mortal12"%string [(Field None 2%N None [])] 12%N []); (Variant "Mortal13"%string [(Field None 2%N None [])] 13%N []); (Variant "Mortal14"%string [(Field None 2%N None [])] 14%N []); (Variant "Mortal15"%string [(Field None 2%N None [])] 15%N []); (Variant "Mortal16"%string [(Field None 2%N None [])] 16%N []); (Variant "Mortal17"%string [(Field None 2%N None [])] 17%N []); (Variant "Mortal18"%string [(Field None 2%N None [])] 18%N []); (Variant "Mortal19"%string [(Field None 2%N None [])] 19%N []); (Variant "Mortal20"%string [(Field None 2%N None [])] 20%N []); (Variant "Mortal21"%string [(Field None 2%N None [])] 21%N []); (Variant "Mortal22"%string [(Field None 2%N None [])] 22%N []); (Variant "Mortal23"%string [(Field None 2%N None [])] 23%N []); (Variant "Mortal24"%string [(Field None 2%N None [])] 24%N []); (Variant "Mortal25"%string [(Field None 2%N None [])] 25%N []); (Variant "Mortal26"%string [(Field None 2%N None [])] 26%N []); (Variant "Mortal27"%string [(Field None 2%N None [])] 27%N []); (Variant "Mortal28"%string [(Field None 2%N None [])] 28%N []); (Variant "Mortal29"%string [(Field None 2%N None [])] 29%N []); (Variant "Mortal30"%string [(Field None 2%N None [])] 30%N []); (Variant "Mortal31"%string [(Field None 2%N None [])] 31%N []); (Variant "Mortal32"%string [(Field None 2%N None [])] 32%N []); (Variant "Mortal33"%string [(Field None 2%N None [])] 33%N []); (Variant "Mortal34"%string [(Field None 2%N None [])] 34%N []); (Variant "Mortal35"%string [(Field None 2%N None [])] 35%N []); (Variant "Mortal36"%string [(Field None 2%N None [])] 36%N []); (Variant "Mortal37"%string [(Field None 2%N None [])] 37%N []); (Variant "Mortal38"%string [(Field None 2%N None [])] 38%N []); (Variant "Mortal39"%string [(Field None 2%N None [])] 39%N []); (Variant "Mortal40"%string [(Field None 2%N None [])] 40%N []); (Variant "Mortal41"%string [(Field None 2%N None [])] 41%N []); (Variant "Mortal42"%string [(Field None 2%N None [])] 42%N []); (Variant "Mortal43"%string [(Field None 2%N None [])] 43%N []); (Variant "Mortal44"%string [(Field None 2%N None [])] 44%N []); (Variant "Mortal45"%string [(Field None 2%N None [])] 45%N []); (Variant "Mortal46"%string [(Field None 2%N None [])] 46%N []); (Variant "Mortal47"%string [(Field None 2%N None [])] 47%N []); (Variant "Mortal48"%string [(Field None 2%N None [])] 48%N []); (Variant "Mortal49"%string [(Field None 2%N None [])] 49%N []); (Variant "Mortal50"%string [(Field None 2%N None [])] 50%N []); (Variant "Mortal51"%string [(Field None 2%N None [])] 51%N []); (Variant "Mortal52"%string [(Field None 2%N None [])] 52%N []); (Variant "Mortal53"%string [(Field None 2%N None [])] 53%N []); (Variant "Mortal54"%string [(Field None 2%N None [])] 54%N []); (Variant "Mortal55"%string [(Field None 2%N None [])] 55%N []); (Variant "Mortal56"%string [(Field None 2%N None [])] 56%N []); (Variant "Mortal57"%string [(Field None 2%N None [])] 57%N []); (Variant "Mortal58"%string [(Field None 2%N None [])] 58%N []); (Variant "Mortal59"%string [(Field None 2%N None [])] 59%N []); (Variant "Mortal60"%string [(Field None 2%N None [])] 60%N []); (Variant "Mortal61"%string [(Field None 2%N None [])] 61%N []); (Variant "Mortal62"%string [(Field None 2%N None [])] 62%N []); (Variant "Mortal63"%string [(Field None 2%N None [])] 63%N []); (Variant "Mortal64"%string [(Field None 2%N None [])] 64%N []); (Variant "Mortal65"%string [(Field None 2%N None [])] 65%N []); (Variant "Mortal66"%string [(Field None 2%N None [])] 66%N []); (Variant "Mortal67"%string [(Field None 2%N None [])] 67%N []); (Variant "Mortal68"%string [(Field None 2%N None [])] 68%N []); (Variant "Mortal69"%string [(Field None 2%N None [])] 69%N []); (Variant "Mortal70"%string [(Field None 2%N None [])] 70%N []); (Variant "Mortal71"%string [(Field None 2%N None [])] 71%N []); (Variant "Mortal72"%string [(Field None 2%N None [])] 72%N []); (Variant "Mortal73"%string [(Field None 2%N None [])] 73%N []); (Variant "Mortal74"%string [(Field None 2%N None [])] 74%N []); (Variant "Mortal75"%string [(Field None 2%N None [])] 75%N []); (Variant "Mortal76"%string [(Field None 2%N None [])] 76%N []); (Variant "Mortal77"%string [(Field None 2%N None [])] 77%N []); (Variant "Mortal78"%string [(Field None 2%N None [])] 78%N []); (Variant "Mortal79"%string [(Field None 2%N None [])] 79%N []); (Variant "Mortal80"%string [(Field None 2%N None [])] 80%N []); (Variant "Mortal81"%string [(Field None 2%N None [])] 81%N []); (Variant "Mortal82"%string [(Field None 2%N None [])] 82%N []); (Variant "Mortal83"%string [(Field None 2%N None [])] 83%N []); (Variant "Mortal84"%string [(Field None 2%N None [])] 84%N []); (Variant "Mortal85"%string [(Field None 2%N None [])] 85%N []); (Variant "Mortal86"%string [(Field None 2%N None [])] 86%N []); (Variant "Mortal87"%string [(Field None 2%N None [])] 87%N []); (Variant "Mortal88"%string [(Field None 2%N None [])] 88%N []); (Variant "Mortal89"%string [(Field None 2%N None [])] 89%N []); (Variant "Mortal90"%string [(Field None 2%N None [])] 90%N []); (Variant "Mortal91"%string [(Field None 2%N None [])] 91%N []); (Variant "Mortal92"%string [(Field None 2%N None [])] 92%N []); (Variant "Mortal93"%string [(Field None 2%N None [])] 93%N []); (Variant "Mortal94"%string [(Field None 2%N None [])] 94%N []); (Variant "Mortal95"%string [(Field None 2%N None [])] 95%N []); (Variant "Mortal96"%string [(Field None 2%N None [])] 96%N []); (Variant "Mortal97"%string [(Field None 2%N None [])] 97%N []); (Variant "Mortal98"%string [(Field None 2%N None [])] 98%N []); (Variant "Mortal99"%string [(Field None 2%N None [])] 99%N []); (Variant "Mortal100"%string [(Field None 2%N None [])] 100%N []); (Variant "Mortal101"%string [(Field None 2%N None [])] 101%N []); (Variant "Mortal102"%string [(Field None 2%N None [])] 102%N []); (Variant "Mortal103"%string [(Field None 2%N None [])] 103%N []); (Variant "Mortal104"%string [(Field None 2%N None [])] 104%N []); (Variant "Mortal105"%string [(Field None 2%N None [])] 105%N []); (Variant "Mortal106"%string [(Field None 2%N None [])] 106%N []); (Variant "Mortal107"%string [(Field None 2%N None [])] 107%N []); (Variant "Mortal108"%string [(Field None 2%N None [])] 108%N []); (Variant "Mortal109"%string [(Field None 2%N None [])] 109%N []); (Variant "Mortal110"%string [(Field None 2%N None [])] 110%N []); (Variant "Mortal111"%string [(Field None 2%N None [])] 111%N []); (Variant "Mortal112"%string [(Field None 2%N None [])] 112%N []); (Variant "Mortal113"%string [(Field None 2%N None [])] 113%N []); (Variant "Mortal114"%string [(Field None 2%N None [])] 114%N []); (Variant "Mortal115"%string [(Field None 2%N None [])] 115%N []); (Variant "Mortal116"%string [(Field None 2%N None [])] 116%N []); (Variant "Mortal117"%string [(Field None 2%N None [])] 117%N []); (Variant "Mortal118"%string [(Field None 2%N None [])] 118%N []); (Variant "Mortal119"%string [(Field None 2%N None [])] 119%N []); (Variant "Mortal120"%string [(Field None 2%N None [])] 120%N []); (Variant "Mortal121"%string [(Field None 2%N None [])] 121%N []); (Variant "Mortal122"%string [(Field None 2%N None [])] 122%N []); (Variant "Mortal123"%string [(Field None 2%N None [])] 123%N []); (Variant "Mortal124"%string [(Field None 2%N None [])] 124%N []); (Variant "Mortal125"%string [(Field None 2%N None [])] 125%N []); (Variant "Mortal126"%string [(Field None 2%N None [])] 126%N []); (Variant "Mortal127"%string [(Field None 2%N None [])] 127%N []); (Variant "Mortal128"%string [(Field None 2%N None [])] 128%N []); (Variant "Mortal129"%string [(Field None 2%N None [])] 129%N []); (Variant "Mortal130"%string [(Field None 2%N None [])] 130%N []); (Variant "Mortal131"%string [(Field None 2%N None [])] 131%N []); (Variant "Mortal132"%string [(Field None 2%N None [])] 132%N []); (Variant "Mortal133"%string [(Field None 2%N None [])] 133%N []); (Variant "Mortal134"%string [(Field None 2%N None [])] 134%N []); (Variant "Mortal135"%string [(Field None 2%N None [])] 135%N []); (Variant "Mortal136"%string [(Field None 2%N None [])] 136%N []); (Variant "Mortal137"%string [(Field None 2%N None [])] 137%N []); (Variant "Mortal138"%string [(Field None 2%N None [])] 138%N []); (Variant "Mortal139"%string [(Field None 2%N None [])] 139%N []); (Variant "Mortal140"%string [(Field None 2%N None [])] 140%N []); (Variant "Mortal141"%string [(Field None 2%N None [])] 141%N []); (Variant "Mortal142"%string [(Field None 2%N None [])] 142%N []); (Variant "Mortal143"%string [(Field None 2%N None [])] 143%N []); (Variant "Mortal144"%string [(Field None 2%N None [])] 144%N []); (Variant "Mortal145"%string [(Field None 2%N None [])] 145%N []); (Variant "Mortal146"%string [(Field None 2%N None [])] 146%N []); (Variant "Mortal147"%string [(Field None 2%N None [])] 147%N []); (Variant "Mortal148"%string [(Field None 2%N None [])] 148%N []); (Variant "Mortal149"%string [(Field None 2%N None [])] 149%N []); (Variant "Mortal150"%string [(Field None 2%N None [])] 150%N []); (Variant "Mortal151"%string [(Field None 2%N None [])] 151%N []); (Variant "Mortal152"%string [(Field None 2%N None [])] 152%N []); (Variant "Mortal153"%string [(Field None 2%N None [])] 153%N []); (Variant "Mortal154"%string [(Field None 2%N None [])] 154%N []); (Variant "Mortal155"%string [(Field None 2%N None [])] 155%N []); (Variant "Mortal156"%string [(Field None 2%N None [])] 156%N []); (Variant "Mortal157"%string [(Field None 2%N None [])] 157%N []); (Variant "Mortal158"%string [(Field None 2%N None [])] 158%N []); (Variant "Mortal159"%string [(Field None 2%N None [])] 159%N []); (Variant "Mortal160"%string [(Field None 2%N None [])] 160%N []); (Variant "Mortal161"%string [(Field None 2%N None [])] 161%N []); (Variant "Mortal162"%string [(Field None 2%N None [])] 162%N []); (Variant "Mortal163"%string [(Field None 2%N None [])] 163%N []); (Variant "Mortal164"%string [(Field None 2%N None [])] 164%N []); (Variant "Mortal165"%string [(Field None 2%N None [])] 165%N []); (Variant "Mortal166"%string [(Field None 2%N None [])] 166%N []); (Variant "Mortal167"%string [(Field None 2%N None [])] 167%N []); (Variant "Mortal168"%string [(Field None 2%N None [])] 168%N []); (Variant "Mortal169"%string [(Field None 2%N None [])] 169%N []); (Variant "Mortal170"%string [(Field None 2%N None [])] 170%N []); (Variant "Mortal171"%string [(Field None 2%N None [])] 171%N []); (Variant "Mortal172"%string [(Field None 2%N None [])] 172%N []); (Variant "Mortal173"%string [(Field None 2%N None [])] 173%N []); (Variant "Mortal174"%string [(Field None 2%N None [])] 174%N []); (Variant "Mortal175"%string [(Field None 2%N None [])] 175%N []); (Variant "Mortal176"%string [(Field None 2%N None [])] 176%N []); (Variant "Mortal177"%string [(Field None 2%N None [])] 177%N []); (Variant "Mortal178"%string [(Field None 2%N None [])] 178%N []); (Variant "Mortal179"%string [(Field None 2%N None [])] 179%N []); (Variant "Mortal180"%string [(Field None 2%N None [])] 180%N []); (Variant "Mortal181"%string [(Field None 2%N None [])] 181%N []); (Variant "Mortal182"%string [(Field None 2%N None [])] 182%N []); (Variant "Mortal183"%string [(Field None 2%N None [])] 183%N []); (Variant "Mortal184"%string [(Field None 2%N None [])] 184%N []); (Variant "Mortal185"%string [(Field None 2%N None [])] 185%N []); (Variant "Mortal186"%string [(Field None 2%N None [])] 186%N []); (Variant "Mortal187"%string [(Field None 2%N None [])] 187%N []); (Variant "Mortal188"%string [(Field None 2%N None [])] 188%N []); (Variant "Mortal189"%string [(Field None 2%N None [])] 189%N []); (Variant "Mortal190"%string [(Field None 2%N None [])] 190%N []); (Variant "Mortal191"%string [(Field None 2%N None [])] 191%N []); (Variant "Mortal192"%string [(Field None 2%N None [])] 192%N []); (Variant "Mortal193"%string [(Field None 2%N None [])] 193%N []); (Variant "Mortal194"%string [(Field None 2%N None [])] 194%N []); (Variant "Mortal195"%string [(Field None 2%N None [])] 195%N []); (Variant "Mortal196"%string [(Field None 2%N None [])] 196%N []); (Variant "Mortal197"%string [(Field None 2%N None [])] 197%N []); (Variant "Mortal198"%string [(Field None 2%N None [])] 198%N []); (Variant "Mortal199"%string [(Field None 2%N None [])] 199%N []); (Variant "Mortal200"%string [(Field None 2%N None [])] 200%N []); (Variant "Mortal201"%string [(Field None 2%N None [])] 201%N []); (Variant "Mortal202"%string [(Field None 2%N None [])] 202%N []); (Variant "Mortal203"%string [(Field None 2%N None [])] 203%N []); (Variant "Mortal204"%string [(Field None 2%N None [])] 204%N []); (Variant "Mortal205"%string [(Field None 2%N None [])] 205%N []); (Variant "Mortal206"%string [(Field None 2%N None [])] 206%N []); (Variant "Mortal207"%string [(Field None 2%N None [])] 207%N []); (Variant "Mortal208"%string [(Field None 2%N None [])] 208%N []); (Variant "Mortal209"%string [(Field None 2%N None [])] 209%N []); (Variant "Mortal210"%string [(Field None 2%N None [])] 210%N []); (Variant "Mortal211"%string [(Field None 2%N None [])] 211%N []); (Variant "Mortal212"%string [(Field None 2%N None [])] 212%N []); (Variant "Mortal213"%string [(Field None 2%N None [])] 213%N []); (Variant "Mortal214"%string [(Field None 2%N None [])] 214%N []); (Variant "Mortal215"%string [(Field None 2%N None [])] 215%N []); (Variant "Mortal216"%string [(Field None 2%N None [])] 216%N []); (Variant "Mortal217"%string [(Field None 2%N None [])] 217%N []); (Variant "Mortal218"%string [(Field None 2%N None [])] 218%N []); (Variant "Mortal219"%string [(Field None 2%N None [])] 219%N []); (Variant "Mortal220"%string [(Field None 2%N None [])] 220%N []); (Variant "Mortal221"%string [(Field None 2%N None [])] 221%N []); (Variant "Mortal222"%string [(Field None 2%N None [])] 222%N []); (Variant "Mortal223"%string [(Field None 2%N None [])] 223%N []); (Variant "Mortal224"%string [(Field None 2%N None [])] 224%N []); (Variant "Mortal225"%string [(Field None 2%N None [])] 225%N []); (Variant "Mortal226"%string [(Field None 2%N None [])] 226%N []); (Variant "Mortal227"%string [(Field None 2%N None [])] 227%N []); (Variant "Mortal228"%string [(Field None 2%N None [])] 228%N []); (Variant "Mortal229"%string [(Field None 2%N None [])] 229%N []); (Variant "Mortal230"%string [(Field None 2%N None [])] 230%N []); (Variant "Mortal231"%string [(Field None 2%N None [])] 231%N []); (Variant "Mortal232"%string [(Field None 2%N None [])] 232%N []); (Variant "Mortal233"%string [(Field None 2%N None [])] 233%N []); (Variant "Mortal234"%string [(Field None 2%N None [])] 234%N []); (Variant "Mortal235"%string [(Field None 2%N None [])] 235%N []); (Variant "Mortal236"%string [(Field None 2%N None [])] 236%N []); (Variant "Mortal237"%string [(Field None 2%N None [])] 237%N []); (Variant "Mortal238"%string [(Field None 2%N None [])] 238%N []); (Variant "Mortal239"%string [(Field None 2%N None [])] 239%N []); (Variant "Mortal240"%string [(Field None 2%N None [])] 240%N []); (Variant "Mortal241"%string [(Field None 2%N None [])] 241%N []); (Variant "Mortal242"%string [(Field None 2%N None [])] 242%N []); (Variant "Mortal243"%string [(Field None 2%N None [])] 243%N []); (Variant "Mortal244"%string [(Field None 2%N None [])] 244%N []); (Variant "Mortal245"%string [(Field None 2%N None [])] 245%N []); (Variant "Mortal246"%string [(Field None 2%N None [])] 246%N []); (Variant "Mortal247"%string [(Field None 2%N None [])] 247%N []); (Variant "Mortal248"%string [(Field None 2%N None [])] 248%N []); (Variant "Mortal249"%string [(Field None 2%N None [])] 249%N []); (Variant "Mortal250"%string [(Field None 2%N None [])] 250%N []); (Variant "Mortal251"%string [(Field None 2%N None [])] 251%N []); (Variant "Mortal252"%string [(Field None 2%N None [])] 252%N []); (Variant "Mortal253"%string [(Field None 2%N None [])] 253%N []); (Variant "Mortal254"%string [(Field None 2%N None [])] 254%N []); (Variant "Mortal255"%string [(Field None 2%N None [])] 255%N [])]) []).
Definition md_t460 : ty := (Ty ["frame_system"%string; "extensions"%string; "check_nonce"%string; "CheckNonce"%string] [("T"%string,None)] (TComposite [(Field None 40%N (Some "T::Nonce"%string) [])]) []).
Definition md_t461 : ty := (Ty ["frame_system"%string; "extensions"%string; "check_weight"%string; "CheckWeight"%string] [("T"%string,None)] (TComposite []) []).
Definition md_t462 : ty := (Ty ["pallet_asset_conversion_tx_payment"%string; "ChargeAssetTxPayment"%string] [("T"%string,None)] (TComposite [(Field (Some "tip"%string) 44%N (Some "BalanceOf<T>"%string) []); (Field (Some "asset_id"%string) 309%N (Some "Option<ChargeAssetIdOf<T>>"%string) [])]) []).
Definition md_t463 : ty := (Ty ["asset_hub_polkadot_runtime"%string; "Runtime"%string] [] (TComposite []) []).
Definition md_t464 : ty := (Ty ["sp_consensus_slots"%string; "SlotDuration"%string] [] (TComposite [(Field None 11%N (Some "u64"%string) [])]) []).
Definition md_t465 : ty := (Ty ["sp_runtime"%string; "generic"%string; "block"%string; "Block"%string] [("Header"%string,(Some 466%N)); ("Extrinsic"%string,(Some 467%N))] (TComposite [(Field (Some "header"%string) 466%N (Some "Header"%string) []); (Field (Some "extrinsics"%string) 468%N (Some "Vec<Extrinsic>"%string) [])]) []).
Definition md_t466 : ty := (Ty ["sp_runtime"%string; "generic"%string; "header"%string; "Header"%string] [("Number"%string,(Some 4%N)); ("Hash"%string,None)] (TComposite [(Field (Some "parent_hash"%string) 12%N (Some "Hash::Output"%string) []); (Field (Some "number"%string) 40%N (Some "Number"%string) []); (Field (Some "state_root"%string) 12%N (Some "Hash::Output"%string) []); (Field (Some "extrinsics_root"%string) 12%N (Some "Hash::Output"%string) []); (Field (Some "digest"%string) 14%N (Some "Digest"%string) [])]) []).
Definition md_t467 : ty := (Ty ["sp_runtime"%string; "generic"%string; "unchecked_extrinsic"%string; "UncheckedExtrinsic"%string] [("Address"%string,(Some 233%N)); ("Call"%string,(Some 343%N)); ("Signature"%string,(Some 370%N)); ("Extra"%string,(Some 453%N))] (TComposite [(Field None 13%N None [])]) []).
Definition md_t468 : ty := (Ty [] [] (TSequence 467%N) []).
Definition md_t469 : ty := (Ty ["sp_core"%string; "OpaqueMetadata"%string] [] (TComposite [(Field None 13%N (Some "Vec<u8>"%string) [])]) []).
Definition md_t470 : ty := (Ty ["Option"%string] [("T"%string,(Some 469%N))] (TVariant [(Variant "None"%string [] 0%N []); (Variant "Some"%string [(Field None 469%N None [])] 1%N [])]) []).
Definition md_t471 : ty := (Ty ["Result"%string] [("T"%string,(Some 123%N)); ("E"%string,(Some 472%N))] (TVariant [(Variant "Ok"%string [(Field None 123%N None [])] 0%N []); (Variant "Err"%string [(Field None 472%N None [])] 1%N [])]) []).
Definition md_t472 : ty := (Ty ["sp_runtime"%string; "transaction_validity"%string; "TransactionValidityError"%string] [] (TVariant [(Variant "Invalid"%string [(Field None 473%N (Some "InvalidTransaction"%string) [])] 0%N []); (Variant "Unknown"%string [(Field None 474%N (Some "UnknownTransaction"%string) [])] 1%N [])]) []).
Definition md_t473 : ty := (Ty ["sp_runtime"%string; "transaction_validity"%string; "InvalidTransaction"%string] [] (TVariant [(Variant "Call"%string [] 0%N []); (Variant "Payment"%string [] 1%N []); (Variant "Future"%string [] 2%N []); (Variant "Stale"%string [] 3%N []); (Variant "BadProof"%string [] 4%N []); (Variant "AncientBirthBlock"%string [] 5%N []); (Variant "ExhaustsResources"%string [] 6%N []); (Variant "Custom"%string [(Field None 2%N (Some "u8"%string) [])] 7%N []); (Variant "BadMandatory"%string [] 8%N []); (Variant "MandatoryValidation"%string [] 9%N []); (Variant "BadSigner"%string [] 10%N [])]) []).
Definition md_t474 : ty := (Ty ["sp_runtime"%string; "transaction_validity"%string; "UnknownTransaction"%string] [] (TVariant [(Variant "CannotLookup"%string [] 0%N []); (Variant "NoUnsignedValidator"%string [] 1%N []); (Variant "Custom"%string [(Field None 2%N (Some "u8"%string) [])] 2%N [])]) []).
Definition md_t475 : ty := (Ty ["sp_inherents"%string; "InherentData"%string] [] (TComposite [(Field (Some "data"%string) 476%N (Some "BTreeMap<InherentIdentifier, Vec<u8>>"%string) [])]) []).
Definition md_t476 : ty := (Ty ["BTreeMap"%string] [("K"%string,(Some 76%N)); ("V"%string,(Some 13%N))] (TComposite [(Field None 477%N None [])]) []).
Definition md_t477 : ty := (Ty [] [] (TSequence 478%N) []).
Definition md_t478 : ty := (Ty [] [] (TTuple [76%N; 13%N]) []).
Definition md_t479 : ty := (Ty ["sp_inherents"%string; "CheckInherentsResult"%string] [] (TComposite [(Field (Some "okay"%string) 30%N (Some "bool"%string) []); (Field (Some "fatal_error"%string) 30%N (Some "bool"%string) []); (Field (Some "errors"%string) 475%N (Some "InherentData"%string) [])]) []).
Definition md_t480 : ty := (Ty ["sp_runtime"%string; "transaction_validity"%string; "TransactionSource"%string] [] (TVariant [(Variant "InBlock"%string [] 0%N []); (Variant "Local"%string [] 1%N []); (Variant "External"%string [] 2%N [])]) []).
Definition md_t481 : ty := (Ty ["Result"%string] [("T"%string,(Some 482%N)); ("E"%string,(Some 472%N))] (TVariant [(Variant "Ok"%string [(Field None 482%N None [])] 0%N []); (Variant "Err"%string [(Field None 472%N None [])] 1%N [])]) []).
Definition md_t482 : ty := (Ty ["sp_runtime"%string; "transaction_validity"%string; "ValidTransaction"%string] [] (TComposite [(Field (Some "priority"%string) 11%N (Some "TransactionPriority"%string) []); (Field (Some "requires"%string) 162%N (Some "Vec<TransactionTag>"%string) []); (Field (Some "provides"%string) 162%N (Some "Vec<TransactionTag>"%string) []); (Field (Some "longevity"%string) 11%N (Some "TransactionLongevity"%string) []); (Field (Some "propagate"%string) 30%N (Some "bool"%string) [])]) []).
Definition md_t483 : ty := (Ty ["Option"%string] [("T"%string,(Some 484%N))] (TVariant [(Variant "None"%string [] 0%N []); (Variant "Some"%string [(Field None 484%N None [])] 1%N [])]) []).
Definition md_t484 : ty := (Ty [] [] (TSequence 485%N) []).
Definition md_t485 : ty := (Ty [] [] (TTuple [13%N; 250%N]) []).
Definition md_t486 : ty := (Ty ["pallet_transaction_payment"%string; "types"%string; "RuntimeDispatchInfo"%string] [("Balance"%string,(Some 6%N)); ("Weight"%string,(Some 9%N))] (TComposite [(Field (Some "weight"%string) 9%N (Some "Weight"%string) []); (Field (Some "class"%string) 23%N (Some "DispatchClass"%string) []); (Field (Some "partial_fee"%string) 6%N (Some "Balance"%string) [])]) []).
Definition md_t487 : ty := (Ty ["pallet_transaction_payment"%string; "types"%string; "FeeDetails"%string] [("Balance"%string,(Some 6%N))] (TComposite [(Field (Some "inclusion_fee"%string) 488%N (Some "Option<InclusionFee<Balance>>"%string) []); (Field (Some "tip"%string) 6%N (Some "Balance"%string) [])]) []).
Definition md_t488 : ty := (Ty ["Option"%string] [("T"%string,(Some 489%N))] (TVariant [(Variant "None"%string [] 0%N []); (Variant "Some"%string [(Field None 489%N None [])] 1%N [])]) []).
Definition md_t489 : ty := (Ty ["pallet_transaction_payment"%string; "types"%string; "InclusionFee"%string] [("Balance"%string,(Some 6%N))] (TComposite [(Field (Some "base_fee"%string) 6%N (Some "Balance"%string) []); (Field (Some "len_fee"%string) 6%N (Some "Balance"%string) []); (Field (Some "adjusted_weight_fee"%string) 6%N (Some "Balance"%string) [])]) []).
Definition md_t490 : ty := (Ty ["Result"%string] [("T"%string,(Some 95%N)); ("E"%string,(Some 491%N))] (TVariant [(Variant "Ok"%string [(Field None 95%N None [])] 0%N []); (Variant "Err"%string [(Field None 491%N None [])] 1%N [])]) []).
Definition md_t491 : ty := (Ty ["assets_common"%string; "runtime_api"%string; "FungiblesAccessError"%string] [] (TVariant [(Variant "AssetIdConversionFailed"%string [] 0%N []); (Variant "AmountToBalanceConversionFailed"%string [] 1%N [])]) []).
Definition md_t492 : ty := (Ty ["cumulus_primitives_core"%string; "CollationInfo"%string] [] (TComposite [(Field (Some "upward_messages"%string) 162%N (Some "Vec<UpwardMessage>"%string) []); (Field (Some "horizontal_messages"%string) 203%N (Some "Vec<OutboundHrmpMessage>"%string) []); (Field (Some "new_validation_code"%string) 493%N (Some "Option<relay_chain::ValidationCode>"%string) []); (Field (Some "processed_downward_messages"%string) 4%N (Some "u32"%string) []); (Field (Some "hrmp_watermark"%string) 4%N (Some "relay_chain::BlockNumber"%string) []); (Field (Some "head_data"%string) 187%N (Some "HeadData"%string) [])]) []).
Definition md_t493 : ty := (Ty ["Option"%string] [("T"%string,(Some 494%N))] (TVariant [(Variant "None"%string [] 0%N []); (Variant "Some"%string [(Field None 494%N None [])] 1%N [])]) []).
Definition md_t494 : ty := (Ty ["polkadot_parachain_primitives"%string; "primitives"%string; "ValidationCode"%string] [] (TComposite [(Field None 13%N (Some "Vec<u8>"%string) [])]) []).
Definition md_t495 : ty := (Ty ["Result"%string] [("T"%string,(Some 124%N)); ("E"%string,(Some 157%N))] (TVariant [(Variant "Ok"%string [(Field None 124%N None [])] 0%N []); (Variant "Err"%string [(Field None 157%N None [])] 1%N [])]) []).
Definition md_t496 : ty := (Ty ["Option"%string] [("T"%string,(Some 497%N))] (TVariant [(Variant "None"%string [] 0%N []); (Variant "Some"%string [(Field None 497%N None [])] 1%N [])]) []).
Definition md_t497 : ty := (Ty [] [] (TTuple [6%N; 6%N]) []).
Definition md_t498 : ty := (Ty ["asset_hub_polkadot_runtime"%string; "RuntimeError"%string] [] (TVariant [(Variant "System"%string [(Field None 174%N (Some "frame_system::Error<Runtime>"%string) [])] 0%N []); (Variant "ParachainSystem"%string [(Field None 215%N (Some "cumulus_pallet_parachain_system::Error<Runtime>"%string) [])] 1%N []); (Variant "Balances"%string [(Field None 236%N (Some "pallet_balances::Error<Runtime>"%string) [])] 10%N []); (Variant "CollatorSelection"%string [(Field None 243%N (Some "pallet_collator_selection::Error<Runtime>"%string) [])] 21%N []); (Variant "Session"%string [(Field None 252%N (Some "pallet_session::Error<Runtime>"%string) [])] 22%N []); (Variant "XcmpQueue"%string [(Field None 266%N (Some "cumulus_pallet_xcmp_queue::Error<Runtime>"%string) [])] 30%N []); (Variant "PolkadotXcm"%string [(Field None 325%N (Some "pallet_xcm::Error<Runtime>"%string) [])] 31%N []); (Variant "MessageQueue"%string [(Field None 340%N (Some "pallet_message_queue::Error<Runtime>"%string) [])] 35%N []); (Variant "Utility"%string [(Field None 386%N (Some "pallet_utility::Error<Runtime>"%string) [])] 40%N []); (Variant "Multisig"%string [(Field None 390%N (Some "pallet_multisig::Error<Runtime>"%string) [])] 41%N []); (Variant "Proxy"%string [(Field None 399%N (Some "pallet_proxy::Error<Runtime>"%string) [])] 42%N []); (Variant "Assets"%string [(Field None 410%N (Some "pallet_assets::Error<Runtime, pallet_assets::Instance1>"%string) [])] 50%N []); (Variant "Uniques"%string [(Field None 420%N (Some "pallet_uniques::Error<Runtime>"%string) [])] 51%N []); (Variant "Nfts"%string [(Field None 441%N (Some "pallet_nfts::Error<Runtime>"%string) [])] 52%N []); (Variant "ForeignAssets"%string [(Field None 446%N (Some "pallet_assets::Error<Runtime, pallet_assets::Instance2>"%string) [])] 53%N []); (Variant "PoolAssets"%string [(Field None 449%N (Some "pallet_assets::Error<Runtime, pallet_assets::Instance3>"%string) [])] 54%N []); (Variant "AssetConversion"%string [(Field None 452%N (Some "pallet_asset_conversion::Error<Runtime>"%string) [])] 55%N [])]) []).
Definition md_types : list ty := [md_t0; md_t1; md_t2; md_t3; md_t4; md_t5; md_t6; md_t7; md_t8; md_t9; md_t10; md_t11; md_t12; md_t13; md_t14; md_t15; md_t16; md_t17; md_t18; md_t19; md_t20; md_t21; md_t22; md_t23; md_t24; md_t25; md_t26; md_t27; md_t28; md_t29; md_t30; md_t31; md_t32; md_t33; md_t34; md_t35; md_t36; md_t37; md_t38; md_t39; md_t40; md_t41; md_t42; md_t43; md_t44; md_t45; md_t46; md_t47; md_t48; md_t49; md_t50; md_t51; md_t52; md_t53; md_t54; md_t55; md_t56; md_t57; md_t58; md_t59; md_t60; md_t61; md_t62; md_t63; md_t64; md_t65; md_t66; md_t67; md_t68; md_t69; md_t70; md_t71; md_t72; md_t73; md_t74; md_t75; md_t76; md_t77; md_t78; md_t79; md_t80; md_t81; md_t82; md_t83; md_t84; md_t85; md_t86; md_t87; md_t88; md_t89; md_t90; md_t91; md_t92; md_t93; md_t94; md_t95; md_t96; md_t97; md_t98; md_t99; md_t100; md_t101; md_t102; md_t103; md_t104; md_t105; md_t106; md_t107; md_t108; md_t109; md_t110; md_t111; md_t112; md_t113; md_t114; md_t115; md_t116; md_t117; md_t118; md_t119; md_t120; md_t121; md_t122; md_t123; md_t124; md_t125; md_t126; md_t127; md_t128; md_t129; md_t130; md_t131; md_t132; md_t133; md_t134; md_t135; md_t136; md_t137; md_t138; md_t139; md_t140; md_t141; md_t142; md_t143; md_t144; md_t145; md_t146; md_t147; md_t148; md_t149; md_t150; md_t151; md_t152; md_t153; md_t154; md_t155; md_t156; md_t157; md_t158; md_t159; md_t160; md_t161; md_t162; md_t163; md_t164; md_t165; md_t166; md_t167; md_t168; md_t169; md_t170; md_t171; md_t172; md_t173; md_t174; md_t175; md_t176; md_t177; md_t178; md_t179; md_t180; md_t181; md_t182; md_t183; md_t184; md_t185; md_t186; md_t187; md_t188; md_t189; md_t190; md_t191; md_t192; md_t193; md_t194; md_t195; md_t196; md_t197; md_t198; md_t199; md_t200; md_t201; md_t202; md_t203; md_t204; md_t205; md_t206; md_t207; md_t208; md_t209; md_t210; md_t211; md_t212; md_t213; md_t214; md_t215; md_t216; md_t217; md_t218; md_t219; md_t220; md_t221; md_t222; md_t223; md_t224; md_t225; md_t226; md_t227; md_t228; md_t229; md_t230; md_t231; md_t232; md_t233; md_t234; md_t235; md_t236; md_t237; md_t238; md_t239; md_t240; md_t241; md_t242; md_t243; md_t244; md_t245; md_t246; md_t247; md_t248; md_t249; md_t250; md_t251; md_t252; md_t253; md_t254; md_t255; md_t256; md_t257; md_t258; md_t259; md_t260; md_t261; md_t262; md_t263; md_t264; md_t265; md_t266; md_t267; md_t268; md_t269; md_t270; md_t271; md_t272; md_t273; md_t274; md_t275; md_t276; md_t277; md_t278; md_t279; md_t280; md_t281; md_t282; md_t283; md_t284; md_t285; md_t286; md_t287; md_t288; md_t289; md_t290; md_t291; md_t292; md_t293; md_t294; md_t295; md_t296; md_t297; md_t298; md_t299; md_t300; md_t301; md_t302; md_t303; md_t304; md_t305; md_t306; md_t307; md_t308; md_t309; md_t310; md_t311; md_t312; md_t313; md_t314; md_t315; md_t316; md_t317; md_t318; md_t319; md_t320; md_t321; md_t322; md_t323; md_t324; md_t325; md_t326; md_t327; md_t328; md_t329; md_t330; md_t331; md_t332; md_t333; md_t334; md_t335; md_t336; md_t337; md_t338; md_t339; md_t340; md_t341; md_t342; md_t343; md_t344; md_t345; md_t346; md_t347; md_t348; md_t349; md_t350; md_t351; md_t352; md_t353; md_t354; md_t355; md_t356; md_t357; md_t358; md_t359; md_t360; md_t361; md_t362; md_t363; md_t364; md_t365; md_t366; md_t367; md_t368; md_t369; md_t370; md_t371; md_t372; md_t373; md_t374; md_t375; md_t376; md_t377; md_t378; md_t379; md_t380; md_t381; md_t382; md_t383; md_t384; md_t385; md_t386; md_t387; md_t388; md_t389; md_t390; md_t391; md_t392; md_t393; md_t394; md_t395; md_t396; md_t397; md_t398; md_t399; md_t400; md_t401; md_t402; md_t403; md_t404; md_t405; md_t406; md_t407; md_t408; md_t409; md_t410; md_t411; md_t412; md_t413; md_t414; md_t415; md_t416; md_t417; md_t418; md_t419; md_t420; md_t421; md_t422; md_t423; md_t424; md_t425; md_t426; md_t427; md_t428; md_t429; md_t430; md_t431; md_t432; md_t433; md_t434; md_t435; md_t436; md_t437; md_t438; md_t439; md_t440; md_t441; md_t442; md_t443; md_t444; md_t445; md_t446; md_t447; md_t448; md_t449; md_t450; md_t451; md_t452; md_t453; md_t454; md_t455; md_t456; md_t457; md_t458; md_t459; md_t460; md_t461; md_t462; md_t463; md_t464; md_t465; md_t466; md_t467; md_t468; md_t469; md_t470; md_t471; md_t472; md_t473; md_t474; md_t475; md_t476; md_t477; md_t478; md_t479; md_t480; md_t481; md_t482; md_t483; md_t484; md_t485; md_t486; md_t487; md_t488; md_t489; md_t490; md_t491; md_t492; md_t493; md_t494; md_t495; md_t496; md_t497; md_t498].
Definition md := metadata_of_v15 (MetadataV15 md_types [(Pallet "System"%string [(Constant "Version"%string [36%N; 115%N; 116%N; 97%N; 116%N; 101%N; 109%N; 105%N; 110%N; 116%N; 36%N; 115%N; 116%N; 97%N; 116%N; 101%N; 109%N; 105%N; 110%N; 116%N; 1%N; 0%N; 0%N; 0%N; 16%N; 74%N; 15%N; 0%N; 0%N; 0%N; 0%N; 0%N; 60%N; 221%N; 113%N; 141%N; 92%N; 197%N; 50%N; 98%N; 212%N; 1%N; 0%N; 0%N; 0%N; 215%N; 189%N; 216%N; 162%N; 114%N; 202%N; 13%N; 101%N; 1%N; 0%N; 0%N; 0%N; 223%N; 106%N; 203%N; 104%N; 153%N; 7%N; 96%N; 155%N; 4%N; 0%N; 0%N; 0%N; 55%N; 227%N; 151%N; 252%N; 124%N; 145%N; 245%N; 228%N; 2%N; 0%N; 0%N; 0%N; 64%N; 254%N; 58%N; 212%N; 1%N; 248%N; 149%N; 154%N; 6%N; 0%N; 0%N; 0%N; 210%N; 188%N; 152%N; 151%N; 238%N; 208%N; 143%N; 21%N; 3%N; 0%N; 0%N; 0%N; 247%N; 139%N; 39%N; 139%N; 229%N; 63%N; 69%N; 76%N; 2%N; 0%N; 0%N; 0%N; 171%N; 60%N; 5%N; 114%N; 41%N; 31%N; 235%N; 139%N; 1%N; 0%N; 0%N; 0%N; 188%N; 157%N; 137%N; 144%N; 79%N; 91%N; 146%N; 63%N; 1%N; 0%N; 0%N; 0%N; 55%N; 200%N; 187%N; 19%N; 80%N; 169%N; 162%N; 168%N; 4%N; 0%N; 0%N; 0%N; 243%N; 255%N; 20%N; 213%N; 171%N; 82%N; 112%N; 89%N; 3%N; 0%N; 0%N; 0%N; 222%N; 146%N; 184%N; 160%N; 66%N; 107%N; 155%N; 246%N; 2%N; 0%N; 0%N; 0%N; 234%N; 147%N; 227%N; 241%N; 111%N; 61%N; 105%N; 98%N; 2%N; 0%N; 0%N; 0%N; 251%N; 197%N; 119%N; 185%N; 215%N; 71%N; 239%N; 214%N; 1%N; 0%N; 0%N; 0%N; 138%N; 128%N; 71%N; 165%N; 58%N; 130%N; 119%N; 236%N; 1%N; 0%N; 0%N; 0%N; 14%N; 0%N; 0%N; 0%N; 0%N] 170%N)]); (Pallet "ParachainSystem"%string []); (Pallet "Timestamp"%string []); (Pallet "ParachainInfo"%string []); (Pallet "Balances"%string []); (Pallet "TransactionPayment"%string []); (Pallet "AssetTxPayment"%string []); (Pallet "Authorship"%string []); (Pallet "CollatorSelection"%string []); (Pallet "Session"%string []); (Pallet "Aura"%string []); (Pallet "AuraExt"%string []); (Pallet "XcmpQueue"%string []); (Pallet "PolkadotXcm"%string []); (Pallet "CumulusXcm"%string []); (Pallet "DmpQueue"%string []); (Pallet "ToKusamaXcmRouter"%string []); (Pallet "MessageQueue"%string []); (Pallet "Utility"%string []); (Pallet "Multisig"%string []); (Pallet "Proxy"%string []); (Pallet "Assets"%string []); (Pallet "Uniques"%string []); (Pallet "Nfts"%string []); (Pallet "ForeignAssets"%string []); (Pallet "PoolAssets"%string []); (Pallet "AssetConversion"%string [])] (ExtrinsicParams 233%N 343%N 370%N 453%N) 4%N [(ExtMeta "CheckNonZeroSender"%string 454%N 124%N); (ExtMeta "CheckSpecVersion"%string 455%N 4%N); (ExtMeta "CheckTxVersion"%string 456%N 4%N); (ExtMeta "CheckGenesis"%string 457%N 12%N); (ExtMeta "CheckMortality"%string 458%N 12%N); (ExtMeta "CheckNonce"%string 460%N 124%N); (ExtMeta "CheckWeight"%string 461%N 124%N); (ExtMeta "ChargeAssetTxPayment"%string 462%N 124%N)]).
Definition nv := match m_spec_name_version md with inl x => x | inr _ => SpecNameVersion "" [] end.
Example tr_14_call :
 match (parse_transaction_unmarked (slice_buffer (unhex "2802080a0300da9f7fd3d9612a68d2ead69dde53297b172b7db514d0d261e7c5be987df7f32a522206000a0400da9f7fd3d9612a68d2ead69dde53297b172b7db514d0d261e7c5be987df7f32a008502400400104a0f000e00000068d56f15f85d3136970ec16946040bc1752654e906147f7e43e9d539d7c3de2f6739fa4cf873fc3b0ad34981f8cb692e13eeecd4323e44039409f4ccccccdac7"%string)) md None 0 tt) with (Ok (c, x), _, _) => show_all bs (card_call b58 idn (ShortSpecs 0%N 10%N "DOT") (string_of_bytes (spec_name nv)) c 0) | _ => "FAIL"%string end
 = "Pallet: Utility
  Call: batch_all
    Field Name: calls
      Sequence: 2 element(s)
        Pallet: Balances
          Call: transfer_keep_alive
            Field Name: dest
              Enum
                Enum Variant Name: Id
                  Id: 15wepZh1jWNqxBjsgErm8HmYiE21n79c5krQJeTsYAjHddeM
            Field Name: value
              Balance: 10.0500 uDOT
        Pallet: Balances
          Call: transfer_all
            Field Name: dest
              Enum
                Enum Variant Name: Id
                  Id: 15wepZh1jWNqxBjsgErm8HmYiE21n79c5krQJeTsYAjHddeM
            Field Name: keep_alive
              Bool: false"%string.
Proof. vm_compute. reflexivity. Qed.
Example tr_14_extensions :
 match (parse_transaction_unmarked (slice_buffer (unhex "2802080a0300da9f7fd3d9612a68d2ead69dde53297b172b7db514d0d261e7c5be987df7f32a522206000a0400da9f7fd3d9612a68d2ead69dde53297b172b7db514d0d261e7c5be987df7f32a008502400400104a0f000e00000068d56f15f85d3136970ec16946040bc1752654e906147f7e43e9d539d7c3de2f6739fa4cf873fc3b0ad34981f8cb692e13eeecd4323e44039409f4ccccccdac7"%string)) md None 0 tt) with (Ok (c, x), _, _) => show_all bs (card_extensions b58 idn (ShortSpecs 0%N 10%N "DOT") (string_of_bytes (spec_name nv)) x) | _ => "FAIL"%string end
 = "Era: Mortal, phase: 40, period: 64
Nonce: 16
Struct: 2 field(s)
  Field Name: tip
    Tip Asset: 1
  Field Name: asset_id
    Enum
      Enum Variant Name: None
Chain: statemint1002000
Tx Version: 14
Genesis Hash: 68d56f15f85d3136970ec16946040bc1752654e906147f7e43e9d539d7c3de2f
Block Hash: 6739fa4cf873fc3b0ad34981f8cb692e13eeecd4323e44039409f4ccccccdac7"%string.
Proof. vm_compute. reflexivity. Qed.
Example tr_15_call :
 match (parse_transaction_unmarked (slice_buffer (unhex "2802080a0300da9f7fd3d9612a68d2ead69dde53297b172b7db514d0d261e7c5be987df7f32a522206000a0400da9f7fd3d9612a68d2ead69dde53297b172b7db514d0d261e7c5be987df7f32a0085024004010f00104a0f000e00000068d56f15f85d3136970ec16946040bc1752654e906147f7e43e9d539d7c3de2f6739fa4cf873fc3b0ad34981f8cb692e13eeecd4323e44039409f4ccccccdac7"%string)) md None 0 tt) with (Ok (c, x), _, _) => show_all bs (card_call b58 idn (ShortSpecs 0%N 10%N "DOT") (string_of_bytes (spec_name nv)) c 0) | _ => "FAIL"%string end
 = "Pallet: Utility
  Call: batch_all
    Field Name: calls
      Sequence: 2 element(s)
        Pallet: Balances
          Call: transfer_keep_alive
            Field Name: dest
              Enum
                Enum Variant Name: Id
                  Id: 15wepZh1jWNqxBjsgErm8HmYiE21n79c5krQJeTsYAjHddeM
            Field Name: value
              Balance: 10.0500 uDOT
        Pallet: Balances
          Call: transfer_all
            Field Name: dest
              Enum
                Enum Variant Name: Id
                  Id: 15wepZh1jWNqxBjsgErm8HmYiE21n79c5krQJeTsYAjHddeM
            Field Name: keep_alive
              Bool: false"%string.
Proof. vm_compute. reflexivity. Qed.
Example tr_15_extensions :
 match (parse_transaction_unmarked (slice_buffer (unhex "2802080a0300da9f7fd3d9612a68d2ead69dde53297b172b7db514d0d261e7c5be987df7f32a522206000a0400da9f7fd3d9612a68d2ead69dde53297b172b7db514d0d261e7c5be987df7f32a0085024004010f00104a0f000e00000068d56f15f85d3136970ec16946040bc1752654e906147f7e43e9d539d7c3de2f6739fa4cf873fc3b0ad34981f8cb692e13eeecd4323e44039409f4ccccccdac7"%string)) md None 0 tt) with (Ok (c, x), _, _) => show_all bs (card_extensions b58 idn (ShortSpecs 0%N 10%N "DOT") (string_of_bytes (spec_name nv)) x) | _ => "FAIL"%string end
 = "Era: Mortal, phase: 40, period: 64
Nonce: 16
Struct: 2 field(s)
  Field Name: tip
    Tip Asset: 1
  Field Name: asset_id
    Enum
      Enum Variant Name: Some
        Struct: 2 field(s)
          Field Name: parents
            u8: 15
          Field Name: interior
            Enum
              Enum Variant Name: Here
Chain: statemint1002000
Tx Version: 14
Genesis Hash: 68d56f15f85d3136970ec16946040bc1752654e906147f7e43e9d539d7c3de2f
Block Hash: 6739fa4cf873fc3b0ad34981f8cb692e13eeecd4323e44039409f4ccccccdac7"%string.
Proof. vm_compute. reflexivity. Qed.
