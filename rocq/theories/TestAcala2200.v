(** GENERATED from /repo/for_tests/acala2200 and /repo/src/tests.rs: the tests of the
    repository on this metadata replayed on the model (tests of the fidelity of the
    model, not proofs of properties). Identicons are not compared. *)
From Verif Require Import Base Compact Types Indicators Decode Sign Meta Balance Cards Unchecked.
From Verif Require Address.
Definition b58 := Address.address.
Definition idn (b : bytes) : bytes := [].
Definition bs := Address.bits_text.
Fixpoint unhex (s : string) : bytes :=
  let v c := let n := N_of_ascii c in if (n <? 58)%N then (n - 48)%N else (n - 87)%N in
  match s with String a (String b r) => (16 * v a + v b)%N :: unhex r | _ => [] end.
Definition md_t0 : ty := (Ty ["sp_core"%string; "crypto"%string; "AccountId32"%string] [] (TComposite [(Field None 1%N (Some "[u8; 32]"%string) [])]) []).
Definition md_t1 : ty := (Ty [] [] (TArray 32%N 2%N) []).
Definition md_t2 : ty := (Ty [] [] (TPrimitive (PrU U8)) []).
Definition md_t3 : ty := (Ty ["frame_system"%string; "AccountInfo"%string] [("Nonce"%string,(Some 4%N)); ("AccountData"%string,(Some 5%N))] (TComposite [(Field (Some "nonce"%string) 4%N (Some "Nonce"%string) []); (Field (Some "consumers"%string) 4%N (Some "RefCount"%string) []); (Field (Some "providers"%string) 4%N (Some "RefCount"%string) []); (Field (Some "sufficients"%string) 4%N (Some "RefCount"%string) []); (Field (Some "data"%string) 5%N (Some "AccountData"%string) [])]) []).
Definition md_t4 : ty := (Ty [] [] (TPrimitive (PrU U32)) []).
Definition md_t5 : ty := (Ty ["pallet_balances"%string; "types"%string; "AccountData"%string] [("Balance"%string,(Some 6%N))] (TComposite [(Field (Some "free"%string) 6%N (Some "Balance"%string) []); (Field (Some "reserved"%string) 6%N (Some "Balance"%string) []); (Field (Some "frozen"%string) 6%N (Some "Balance"%string) []); (Field (Some "flags"%string) 7%N (Some "ExtraFlags"%string) [])]) []).
Definition md_t6 : ty := (Ty [] [] (TPrimitive (PrU U128)) []).
Definition md_t7 : ty := (Ty ["pallet_balances"%string; "types"%string; "ExtraFlags"%string] [] (TComposite [(Field None 6%N (Some "u128"%string) [])]) []).
Definition md_t8 : ty := (Ty ["frame_support"%string; "dispatch"%string; "PerDispatchClass"%string] [("T"%string,(Some 9%N))] (TComposite [(Field (Some "normal"%string) 9%N (Some "T"%string) []); (Field (Some "operational"%string) 9%N (Some "T"%string) []); (Field (Some "mandatory"%string) 9%N (Some "T"%string) [])]) []).
Definition md_t9 : ty := (Ty ["sp_weights"%string; "weight_v2"%string; "Weight"%string] [] (TComposite [(Field (Some "ref_time"%string) 10%N (Some "u64"%string) []); (Field (Some "proof_size"%string) 10%N (Some "u64"%string) [])]) []).
Definition md_t10 : ty := (Ty [] [] (TCompact 11%N) []).
Definition md_t11 : ty := (Ty [] [] (TPrimitive (PrU U64)) []).
Definition md_t12 : ty := (Ty ["primitive_types"%string; "H256"%string] [] (TComposite [(Field None 1%N (Some "[u8; 32]"%string) [])]) []).
Definition md_t13 : ty := (Ty [] [] (TSequence 2%N) []).
Definition md_t14 : ty := (Ty ["sp_runtime"%string; "generic"%string; "digest"%string; "Digest"%string] [] (TComposite [(Field (Some "logs"%string) 15%N (Some "Vec<DigestItem>"%string) [])]) []).
Definition md_t15 : ty := (Ty [] [] (TSequence 16%N) []).
Definition md_t16 : ty := (Ty ["sp_runtime"%string; "generic"%string; "digest"%string; "DigestItem"%string] [] (TVariant [(Variant "PreRuntime"%string [(Field None 17%N (Some "ConsensusEngineId"%string) []); (Field None 13%N (Some "Vec<u8>"%string) [])] 6%N []); (Variant "Consensus"%string [(Field None 17%N (Some "ConsensusEngineId"%string) []); (Field None 13%N (Some "Vec<u8>"%string) [])] 4%N []); (Variant "Seal"%string [(Field None 17%N (Some "ConsensusEngineId"%string) []); (Field None 13%N (Some "Vec<u8>"%string) [])] 5%N []); (Variant "Other"%string [(Field None 13%N (Some "Vec<u8>"%string) [])] 0%N []); (Variant "RuntimeEnvironmentUpdated"%string [] 8%N [])]) []).
Definition md_t17 : ty := (Ty [] [] (TArray 4%N 2%N) []).
Definition md_t18 : ty := (Ty [] [] (TSequence 19%N) []).
Definition md_t19 : ty := (Ty ["frame_system"%string; "EventRecord"%string] [("E"%string,(Some 20%N)); ("T"%string,(Some 12%N))] (TComposite [(Field (Some "phase"%string) 205%N (Some "Phase"%string) []); (Field (Some "event"%string) 20%N (Some "E"%string) []); (Field (Some "topics"%string) 191%N (Some "Vec<T>"%string) [])]) []).
Definition md_t20 : ty := (Ty ["acala_runtime"%string; "RuntimeEvent"%string] [] (TVariant [(Variant "System"%string [(Field None 21%N (Some "frame_system::Event<Runtime>"%string) [])] 0%N []); (Variant "Scheduler"%string [(Field None 30%N (Some "pallet_scheduler::Event<Runtime>"%string) [])] 2%N []); (Variant "Utility"%string [(Field None 35%N (Some "pallet_utility::Event"%string) [])] 3%N []); (Variant "Multisig"%string [(Field None 36%N (Some "pallet_multisig::Event<Runtime>"%string) [])] 4%N []); (Variant "Proxy"%string [(Field None 38%N (Some "pallet_proxy::Event<Runtime>"%string) [])] 5%N []); (Variant "TransactionPause"%string [(Field None 41%N (Some "module_transaction_pause::Event<Runtime>"%string) [])] 6%N []); (Variant "IdleScheduler"%string [(Field None 44%N (Some "module_idle_scheduler::Event<Runtime>"%string) [])] 7%N []); (Variant "Preimage"%string [(Field None 48%N (Some "pallet_preimage::Event<Runtime>"%string) [])] 8%N []); (Variant "Balances"%string [(Field None 49%N (Some "pallet_balances::Event<Runtime>"%string) [])] 10%N []); (Variant "Tokens"%string [(Field None 51%N (Some "orml_tokens::Event<Runtime>"%string) [])] 11%N []); (Variant "Currencies"%string [(Field None 56%N (Some "module_currencies::Event<Runtime>"%string) [])] 12%N []); (Variant "Vesting"%string [(Field None 57%N (Some "orml_vesting::Event<Runtime>"%string) [])] 13%N []); (Variant "TransactionPayment"%string [(Field None 60%N (Some "module_transaction_payment::Event<Runtime>"%string) [])] 14%N []); (Variant "Treasury"%string [(Field None 62%N (Some "pallet_treasury::Event<Runtime>"%string) [])] 20%N []); (Variant "Bounties"%string [(Field None 63%N (Some "pallet_bounties::Event<Runtime>"%string) [])] 21%N []); (Variant "Tips"%string [(Field None 64%N (Some "pallet_tips::Event<Runtime>"%string) [])] 22%N []); (Variant "CollatorSelection"%string [(Field None 65%N (Some "module_collator_selection::Event<Runtime>"%string) [])] 41%N []); (Variant "Session"%string [(Field None 67%N (Some "pallet_session::Event"%string) [])] 42%N []); (Variant "SessionManager"%string [(Field None 68%N (Some "module_session_manager::Event<Runtime>"%string) [])] 45%N []); (Variant "XcmpQueue"%string [(Field None 69%N (Some "cumulus_pallet_xcmp_queue::Event<Runtime>"%string) [])] 50%N []); (Variant "PolkadotXcm"%string [(Field None 72%N (Some "pallet_xcm::Event<Runtime>"%string) [])] 51%N []); (Variant "CumulusXcm"%string [(Field None 125%N (Some "cumulus_pallet_xcm::Event<Runtime>"%string) [])] 52%N []); (Variant "DmpQueue"%string [(Field None 126%N (Some "cumulus_pallet_dmp_queue::Event<Runtime>"%string) [])] 53%N []); (Variant "XTokens"%string [(Field None 127%N (Some "orml_xtokens::Event<Runtime>"%string) [])] 54%N []); (Variant "UnknownTokens"%string [(Field None 128%N (Some "orml_unknown_tokens::Event"%string) [])] 55%N []); (Variant "OrmlXcm"%string [(Field None 129%N (Some "orml_xcm::Event<Runtime>"%string) [])] 56%N []); (Variant "Authority"%string [(Field None 130%N (Some "orml_authority::Event<Runtime>"%string) [])] 60%N []); (Variant "GeneralCouncil"%string [(Field None 142%N (Some "pallet_collective::Event<Runtime, pallet_collective::Instance1>"%string) [])] 61%N []); (Variant "GeneralCouncilMembership"%string [(Field None 143%N (Some "pallet_membership::Event<Runtime, pallet_membership::Instance1>"%string) [])] 62%N []); (Variant "FinancialCouncil"%string [(Field None 144%N (Some "pallet_collective::Event<Runtime, pallet_collective::Instance2>"%string) [])] 63%N []); (Variant "FinancialCouncilMembership"%string [(Field None 145%N (Some "pallet_membership::Event<Runtime, pallet_membership::Instance2>"%string) [])] 64%N []); (Variant "HomaCouncil"%string [(Field None 146%N (Some "pallet_collective::Event<Runtime, pallet_collective::Instance3>"%string) [])] 65%N []); (Variant "HomaCouncilMembership"%string [(Field None 147%N (Some "pallet_membership::Event<Runtime, pallet_membership::Instance3>"%string) [])] 66%N []); (Variant "TechnicalCommittee"%string [(Field None 148%N (Some "pallet_collective::Event<Runtime, pallet_collective::Instance4>"%string) [])] 67%N []); (Variant "TechnicalCommitteeMembership"%string [(Field None 149%N (Some "pallet_membership::Event<Runtime, pallet_membership::Instance4>"%string) [])] 68%N []); (Variant "Democracy"%string [(Field None 150%N (Some "pallet_democracy::Event<Runtime>"%string) [])] 69%N []); (Variant "AcalaOracle"%string [(Field None 155%N (Some "orml_oracle::Event<Runtime, orml_oracle::Instance1>"%string) [])] 70%N []); (Variant "OperatorMembershipAcala"%string [(Field None 158%N (Some "pallet_membership::Event<Runtime, pallet_membership::Instance5>"%string) [])] 71%N []); (Variant "Auction"%string [(Field None 159%N (Some "orml_auction::Event<Runtime>"%string) [])] 80%N []); (Variant "Prices"%string [(Field None 160%N (Some "module_prices::Event<Runtime>"%string) [])] 90%N []); (Variant "Dex"%string [(Field None 161%N (Some "module_dex::Event<Runtime>"%string) [])] 91%N []); (Variant "Earning"%string [(Field None 165%N (Some "module_earning::Event<Runtime>"%string) [])] 94%N []); (Variant "AuctionManager"%string [(Field None 166%N (Some "module_auction_manager::Event<Runtime>"%string) [])] 100%N []); (Variant "Loans"%string [(Field None 167%N (Some "module_loans::Event<Runtime>"%string) [])] 101%N []); (Variant "Honzon"%string [(Field None 169%N (Some "module_honzon::Event<Runtime>"%string) [])] 102%N []); (Variant "CdpTreasury"%string [(Field None 170%N (Some "module_cdp_treasury::Event<Runtime>"%string) [])] 103%N []); (Variant "CdpEngine"%string [(Field None 171%N (Some "module_cdp_engine::Event<Runtime>"%string) [])] 104%N []); (Variant "EmergencyShutdown"%string [(Field None 173%N (Some "module_emergency_shutdown::Event<Runtime>"%string) [])] 105%N []); (Variant "Homa"%string [(Field None 176%N (Some "module_homa::Event<Runtime>"%string) [])] 116%N []); (Variant "XcmInterface"%string [(Field None 179%N (Some "module_xcm_interface::Event<Runtime>"%string) [])] 117%N []); (Variant "Incentives"%string [(Field None 181%N (Some "module_incentives::Event<Runtime>"%string) [])] 120%N []); (Variant "NFT"%string [(Field None 183%N (Some "module_nft::Event<Runtime>"%string) [])] 121%N []); (Variant "AssetRegistry"%string [(Field None 184%N (Some "module_asset_registry::Event<Runtime>"%string) [])] 122%N []); (Variant "LiquidCrowdloan"%string [(Field None 187%N (Some "module_liquid_crowdloan::Event<Runtime>"%string) [])] 123%N []); (Variant "EVM"%string [(Field None 188%N (Some "module_evm::Event<Runtime>"%string) [])] 130%N []); (Variant "EvmAccounts"%string [(Field None 201%N (Some "module_evm_accounts::Event<Runtime>"%string) [])] 132%N []); (Variant "StableAsset"%string [(Field None 202%N (Some "nutsfinance_stable_asset::Event<Runtime>"%string) [])] 200%N []); (Variant "ParachainSystem"%string [(Field None 203%N (Some "cumulus_pallet_parachain_system::Event<Runtime>"%string) [])] 30%N []); (Variant "Sudo"%string [(Field None 204%N (Some "pallet_sudo::Event<Runtime>"%string) [])] 255%N [])]) []).
Definition md_t21 : ty := (Ty ["frame_system"%string; "pallet"%string; "Event"%string] [("T"%string,None)] (TVariant [(Variant "ExtrinsicSuccess"%string [(Field (Some "dispatch_info"%string) 22%N (Some "DispatchInfo"%string) [])] 0%N []); (Variant "ExtrinsicFailed"%string [(Field (Some "dispatch_error"%string) 25%N (Some "DispatchError"%string) []); (Field (Some "dispatch_info"%string) 22%N (Some "DispatchInfo"%string) [])] 1%N []); (Variant "CodeUpdated"%string [] 2%N []); (Variant "NewAccount"%string [(Field (Some "account"%string) 0%N (Some "T::AccountId"%string) [])] 3%N []); (Variant "KilledAccount"%string [(Field (Some "account"%string) 0%N (Some "T::AccountId"%string) [])] 4%N []); (Variant "Remarked"%string [(Field (Some "sender"%string) 0%N (Some "T::AccountId"%string) []); (Field (Some "hash"%string) 12%N (Some "T::Hash"%string) [])] 5%N [])]) []).
Definition md_t22 : ty := (Ty ["frame_support"%string; "dispatch"%string; "DispatchInfo"%string] [] (TComposite [(Field (Some "weight"%string) 9%N (Some "Weight"%string) []); (Field (Some "class"%string) 23%N (Some "DispatchClass"%string) []); (Field (Some "pays_fee"%string) 24%N (Some "Pays"%string) [])]) []).
Definition md_t23 : ty := (Ty ["frame_support"%string; "dispatch"%string; "DispatchClass"%string] [] (TVariant [(Variant "Normal"%string [] 0%N []); (Variant "Operational"%string [] 1%N []); (Variant "Mandatory"%string [] 2%N [])]) []).
Definition md_t24 : ty := (Ty ["frame_support"%string; "dispatch"%string; "Pays"%string] [] (TVariant [(Variant "Yes"%string [] 0%N []); (Variant "No"%string [] 1%N [])]) []).
Definition md_t25 : ty := (Ty ["sp_runtime"%string; "DispatchError"%string] [] (TVariant [(Variant "Other"%string [] 0%N []); (Variant "CannotLookup"%string [] 1%N []); (Variant "BadOrigin"%string [] 2%N []); (Variant "Module"%string [(Field None 26%N (Some "ModuleError"%string) [])] 3%N []); (Variant "ConsumerRemaining"%string [] 4%N []); (Variant "NoProviders"%string [] 5%N []); (Variant "TooManyConsumers"%string [] 6%N []); (Variant "Token"%string [(Field None 27%N (Some "TokenError"%string) [])] 7%N []); (Variant "Arithmetic"%string [(Field None 28%N (Some "ArithmeticError"%string) [])] 8%N []); (Variant "Transactional"%string [(Field None 29%N (Some "TransactionalError"%string) [])] 9%N []); (Variant "Exhausted"%string [] 10%N []); (Variant "Corruption"%string [] 11%N []); (Variant "Unavailable"%string [] 12%N []); (Variant "RootNotAllowed"%string [] 13%N [])]) []).
Definition md_t26 : ty := (Ty ["sp_runtime"%string; "ModuleError"%string] [] (TComposite [(Field (Some "index"%string) 2%N (Some "u8"%string) []); (Field (Some "error"%string) 17%N (Some "[u8; MAX_MODULE_ERROR_ENCODED_SIZE]"%string) [])]) []).
Definition md_t27 : ty := (Ty ["sp_runtime"%string; "TokenError"%string] [] (TVariant [(Variant "FundsUnavailable"%string [] 0%N []); (Variant "OnlyProvider"%string [] 1%N []); (Variant "BelowMinimum"%string [] 2%N []); (Variant "CannotCreate"%string [] 3%N []); (Variant "UnknownAsset"%string [] 4%N []); (Variant "Frozen"%string [] 5%N []); (Variant "Unsupported"%string [] 6%N []); (Variant "CannotCreateHold"%string [] 7%N []); (Variant "NotExpendable"%string [] 8%N []); (Variant "Blocked"%string [] 9%N [])]) []).
Definition md_t28 : ty := (Ty ["sp_arithmetic"%string; "ArithmeticError"%string] [] (TVariant [(Variant "Underflow"%string [] 0%N []); (Variant "Overflow"%string [] 1%N []); (Variant "DivisionByZero"%string [] 2%N [])]) []).
Definition md_t29 : ty := (Ty ["sp_runtime"%string; "TransactionalError"%string] [] (TVariant [(Variant "LimitReached"%string [] 0%N []); (Variant "NoLayer"%string [] 1%N [])]) []).
Definition md_t30 : ty := (Ty ["pallet_scheduler"%string; "pallet"%string; "Event"%string] [("T"%string,None)] (TVariant [(Variant "Scheduled"%string [(Field (Some "when"%string) 4%N (Some "BlockNumberFor<T>"%string) []); (Field (Some "index"%string) 4%N (Some "u32"%string) [])] 0%N []); (Variant "Canceled"%string [(Field (Some "when"%string) 4%N (Some "BlockNumberFor<T>"%string) []); (Field (Some "index"%string) 4%N (Some "u32"%string) [])] 1%N []); (Variant "Dispatched"%string [(Field (Some "task"%string) 31%N (Some "TaskAddress<BlockNumberFor<T>>"%string) []); (Field (Some "id"%string) 32%N (Some "Option<TaskName>"%string) []); (Field (Some "result"%string) 33%N (Some "DispatchResult"%string) [])] 2%N []); (Variant "CallUnavailable"%string [(Field (Some "task"%string) 31%N (Some "TaskAddress<BlockNumberFor<T>>"%string) []); (Field (Some "id"%string) 32%N (Some "Option<TaskName>"%string) [])] 3%N []); (Variant "PeriodicFailed"%string [(Field (Some "task"%string) 31%N (Some "TaskAddress<BlockNumberFor<T>>"%string) []); (Field (Some "id"%string) 32%N (Some "Option<TaskName>"%string) [])] 4%N []); (Variant "PermanentlyOverweight"%string [(Field (Some "task"%string) 31%N (Some "TaskAddress<BlockNumberFor<T>>"%string) []); (Field (Some "id"%string) 32%N (Some "Option<TaskName>"%string) [])] 5%N [])]) []).
Definition md_t31 : ty := (Ty [] [] (TTuple [4%N; 4%N]) []).
Definition md_t32 : ty := (Ty ["Option"%string] [("T"%string,(Some 1%N))] (TVariant [(Variant "None"%string [] 0%N []); (Variant "Some"%string [(Field None 1%N None [])] 1%N [])]) []).
Definition md_t33 : ty := (Ty ["Result"%string] [("T"%string,(Some 34%N)); ("E"%string,(Some 25%N))] (TVariant [(Variant "Ok"%string [(Field None 34%N None [])] 0%N []); (Variant "Err"%string [(Field None 25%N None [])] 1%N [])]) []).
Definition md_t34 : ty := (Ty [] [] (TTuple []) []).
Definition md_t35 : ty := (Ty ["pallet_utility"%string; "pallet"%string; "Event"%string] [] (TVariant [(Variant "BatchInterrupted"%string [(Field (Some "index"%string) 4%N (Some "u32"%string) []); (Field (Some "error"%string) 25%N (Some "DispatchError"%string) [])] 0%N []); (Variant "BatchCompleted"%string [] 1%N []); (Variant "BatchCompletedWithErrors"%string [] 2%N []); (Variant "ItemCompleted"%string [] 3%N []); (Variant "ItemFailed"%string [(Field (Some "error"%string) 25%N (Some "DispatchError"%string) [])] 4%N []); (Variant "DispatchedAs"%string [(Field (Some "result"%string) 33%N (Some "DispatchResult"%string) [])] 5%N [])]) []).
Definition md_t36 : ty := (Ty ["pallet_multisig"%string; "pallet"%string; "Event"%string] [("T"%string,None)] (TVariant [(Variant "NewMultisig"%string [(Field (Some "approving"%string) 0%N (Some "T::AccountId"%string) []); (Field (Some "multisig"%string) 0%N (Some "T::AccountId"%string) []); (Field (Some "call_hash"%string) 1%N (Some "CallHash"%string) [])] 0%N []); (Variant "MultisigApproval"%string [(Field (Some "approving"%string) 0%N (Some "T::AccountId"%string) []); (Field (Some "timepoint"%string) 37%N (Some "Timepoint<BlockNumberFor<T>>"%string) []); (Field (Some "multisig"%string) 0%N (Some "T::AccountId"%string) []); (Field (Some "call_hash"%string) 1%N (Some "CallHash"%string) [])] 1%N []); (Variant "MultisigExecuted"%string [(Field (Some "approving"%string) 0%N (Some "T::AccountId"%string) []); (Field (Some "timepoint"%string) 37%N (Some "Timepoint<BlockNumberFor<T>>"%string) []); (Field (Some "multisig"%string) 0%N (Some "T::AccountId"%string) []); (Field (Some "call_hash"%string) 1%N (Some "CallHash"%string) []); (Field (Some "result"%string) 33%N (Some "DispatchResult"%string) [])] 2%N []); (Variant "MultisigCancelled"%string [(Field (Some "cancelling"%string) 0%N (Some "T::AccountId"%string) []); (Field (Some "timepoint"%string) 37%N (Some "Timepoint<BlockNumberFor<T>>"%string) []); (Field (Some "multisig"%string) 0%N (Some "T::AccountId"%string) []); (Field (Some "call_hash"%string) 1%N (Some "CallHash"%string) [])] 3%N [])]) []).
Definition md_t37 : ty := (Ty ["pallet_multisig"%string; "Timepoint"%string] [("BlockNumber"%string,(Some 4%N))] (TComposite [(Field (Some "height"%string) 4%N (Some "BlockNumber"%string) []); (Field (Some "index"%string) 4%N (Some "u32"%string) [])]) []).
Definition md_t38 : ty := (Ty ["pallet_proxy"%string; "pallet"%string; "Event"%string] [("T"%string,None)] (TVariant [(Variant "ProxyExecuted"%string [(Field (Some "result"%string) 33%N (Some "DispatchResult"%string) [])] 0%N []); (Variant "PureCreated"%string [(Field (Some "pure"%string) 0%N (Some "T::AccountId"%string) []); (Field (Some "who"%string) 0%N (Some "T::AccountId"%string) []); (Field (Some "proxy_type"%string) 39%N (Some "T::ProxyType"%string) []); (Field (Some "disambiguation_index"%string) 40%N (Some "u16"%string) [])] 1%N []); (Variant "Announced"%string [(Field (Some "real"%string) 0%N (Some "T::AccountId"%string) []); (Field (Some "proxy"%string) 0%N (Some "T::AccountId"%string) []); (Field (Some "call_hash"%string) 12%N (Some "CallHashOf<T>"%string) [])] 2%N []); (Variant "ProxyAdded"%string [(Field (Some "delegator"%string) 0%N (Some "T::AccountId"%string) []); (Field (Some "delegatee"%string) 0%N (Some "T::AccountId"%string) []); (Field (Some "proxy_type"%string) 39%N (Some "T::ProxyType"%string) []); (Field (Some "delay"%string) 4%N (Some "BlockNumberFor<T>"%string) [])] 3%N []); (Variant "ProxyRemoved"%string [(Field (Some "delegator"%string) 0%N (Some "T::AccountId"%string) []); (Field (Some "delegatee"%string) 0%N (Some "T::AccountId"%string) []); (Field (Some "proxy_type"%string) 39%N (Some "T::ProxyType"%string) []); (Field (Some "delay"%string) 4%N (Some "BlockNumberFor<T>"%string) [])] 4%N [])]) []).
Definition md_t39 : ty := (Ty ["runtime_common"%string; "ProxyType"%string] [] (TVariant [(Variant "Any"%string [] 0%N []); (Variant "CancelProxy"%string [] 1%N []); (Variant "Governance"%string [] 2%N []); (Variant "Auction"%string [] 3%N []); (Variant "Swap"%string [] 4%N []); (Variant "Loan"%string [] 5%N []); (Variant "DexLiquidity"%string [] 6%N []); (Variant "StableAssetSwap"%string [] 7%N []); (Variant "StableAssetLiquidity"%string [] 8%N []); (Variant "Homa"%string [] 9%N [])]) []).
Definition md_t40 : ty := (Ty [] [] (TPrimitive (PrU U16)) []).
Definition md_t41 : ty := (Ty ["module_transaction_pause"%string; "module"%string; "Event"%string] [("T"%string,None)] (TVariant [(Variant "TransactionPaused"%string [(Field (Some "pallet_name_bytes"%string) 13%N (Some "Vec<u8>"%string) []); (Field (Some "function_name_bytes"%string) 13%N (Some "Vec<u8>"%string) [])] 0%N []); (Variant "TransactionUnpaused"%string [(Field (Some "pallet_name_bytes"%string) 13%N (Some "Vec<u8>"%string) []); (Field (Some "function_name_bytes"%string) 13%N (Some "Vec<u8>"%string) [])] 1%N []); (Variant "EvmPrecompilePaused"%string [(Field (Some "address"%string) 42%N (Some "H160"%string) [])] 2%N []); (Variant "EvmPrecompileUnpaused"%string [(Field (Some "address"%string) 42%N (Some "H160"%string) [])] 3%N [])]) []).
Definition md_t42 : ty := (Ty ["primitive_types"%string; "H160"%string] [] (TComposite [(Field None 43%N (Some "[u8; 20]"%string) [])]) []).
Definition md_t43 : ty := (Ty [] [] (TArray 20%N 2%N) []).
Definition md_t44 : ty := (Ty ["module_idle_scheduler"%string; "module"%string; "Event"%string] [("T"%string,None)] (TVariant [(Variant "TaskDispatched"%string [(Field (Some "task_id"%string) 4%N (Some "Nonce"%string) []); (Field (Some "result"%string) 33%N (Some "DispatchResult"%string) [])] 0%N []); (Variant "TaskAdded"%string [(Field (Some "task_id"%string) 4%N (Some "Nonce"%string) []); (Field (Some "task"%string) 45%N (Some "T::Task"%string) [])] 1%N [])]) []).
Definition md_t45 : ty := (Ty ["acala_runtime"%string; "ScheduledTasks"%string] [] (TVariant [(Variant "EvmTask"%string [(Field None 46%N (Some "EvmTask<Runtime>"%string) [])] 0%N [])]) []).
Definition md_t46 : ty := (Ty ["module_evm"%string; "EvmTask"%string] [("T"%string,(Some 47%N))] (TVariant [(Variant "Schedule"%string [(Field (Some "from"%string) 42%N (Some "EvmAddress"%string) []); (Field (Some "target"%string) 42%N (Some "EvmAddress"%string) []); (Field (Some "input"%string) 13%N (Some "Vec<u8>"%string) []); (Field (Some "value"%string) 6%N (Some "BalanceOf<T>"%string) []); (Field (Some "gas_limit"%string) 11%N (Some "u64"%string) []); (Field (Some "storage_limit"%string) 4%N (Some "u32"%string) [])] 0%N []); (Variant "Remove"%string [(Field (Some "caller"%string) 42%N (Some "EvmAddress"%string) []); (Field (Some "contract"%string) 42%N (Some "EvmAddress"%string) []); (Field (Some "maintainer"%string) 42%N (Some "EvmAddress"%string) [])] 1%N [])]) []).
Definition md_t47 : ty := (Ty ["acala_runtime"%string; "Runtime"%string] [] (TComposite []) []).
Definition md_t48 : ty := (Ty ["pallet_preimage"%string; "pallet"%string; "Event"%string] [("T"%string,None)] (TVariant [(Variant "Noted"%string [(Field (Some "hash"%string) 12%N (Some "T::Hash"%string) [])] 0%N []); (Variant "Requested"%string [(Field (Some "hash"%string) 12%N (Some "T::Hash"%string) [])] 1%N []); (Variant "Cleared"%string [(Field (Some "hash"%string) 12%N (Some "T::Hash"%string) [])] 2%N [])]) []).
Definition md_t49 : ty := (Ty ["pallet_balances"%string; "pallet"%string; "Event"%string] [("T"%string,None); ("I"%string,None)] (TVariant [(Variant "Endowed"%string [(Field (Some "account"%string) 0%N (Some "T::AccountId"%string) []); (Field (Some "free_balance"%string) 6%N (Some "T::Balance"%string) [])] 0%N []); (Variant "DustLost"%string [(Field (Some "account"%string) 0%N (Some "T::AccountId"%string) []); (Field (Some "amount"%string) 6%N (Some "T::Balance"%string) [])] 1%N []); (Variant "Transfer"%string [(Field (Some "from"%string) 0%N (Some "T::AccountId"%string) []); (Field (Some "to"%string) 0%N (Some "T::AccountId"%string) []); (Field (Some "amount"%string) 6%N (Some "T::Balance"%string) [])] 2%N []); (Variant "BalanceSet"%string [(Field (Some "who"%string) 0%N (Some "T::AccountId"%string) []); (Field (Some "free"%string) 6%N (Some "T::Balance"%string) [])] 3%N []); (Variant "Reserved"%string [(Field (Some "who"%string) 0%N (Some "T::AccountId"%string) []); (Field (Some "amount"%string) 6%N (Some "T::Balance"%string) [])] 4%N []); (Variant "Unreserved"%string [(Field (Some "who"%string) 0%N (Some "T::AccountId"%string) []); (Field (Some "amount"%string) 6%N (Some "T::Balance"%string) [])] 5%N []); (Variant "ReserveRepatriated"%string [(Field (Some "from"%string) 0%N (Some "T::AccountId"%string) []); (Field (Some "to"%string) 0%N (Some "T::AccountId"%string) []); (Field (Some "amount"%string) 6%N (Some "T::Balance"%string) []); (Field (Some "destination_status"%string) 50%N (Some "Status"%string) [])] 6%N []); (Variant "Deposit"%string [(Field (Some "who"%string) 0%N (Some "T::AccountId"%string) []); (Field (Some "amount"%string) 6%N (Some "T::Balance"%string) [])] 7%N []); (Variant "Withdraw"%string [(Field (Some "who"%string) 0%N (Some "T::AccountId"%string) []); (Field (Some "amount"%string) 6%N (Some "T::Balance"%string) [])] 8%N []); (Variant "Slashed"%string [(Field (Some "who"%string) 0%N (Some "T::AccountId"%string) []); (Field (Some "amount"%string) 6%N (Some "T::Balance"%string) [])] 9%N []); (Variant "Minted"%string [(Field (Some "who"%string) 0%N (Some "T::AccountId"%string) []); (Field (Some "amount"%string) 6%N (Some "T::Balance"%string) [])] 10%N []); (Variant "Burned"%string [(Field (Some "who"%string) 0%N (Some "T::AccountId"%string) []); (Field (Some "amount"%string) 6%N (Some "T::Balance"%string) [])] 11%N []); (Variant "Suspended"%string [(Field (Some "who"%string) 0%N (Some "T::AccountId"%string) []); (Field (Some "amount"%string) 6%N (Some "T::Balance"%string) [])] 12%N []); (Variant "Restored"%string [(Field (Some "who"%string) 0%N (Some "T::AccountId"%string) []); (Field (Some "amount"%string) 6%N (Some "T::Balance"%string) [])] 13%N []); (Variant "Upgraded"%string [(Field (Some "who"%string) 0%N (Some "T::AccountId"%string) [])] 14%N []); (Variant "Issued"%string [(Field (Some "amount"%string) 6%N (Some "T::Balance"%string) [])] 15%N []); (Variant "Rescinded"%string [(Field (Some "amount"%string) 6%N (Some "T::Balance"%string) [])] 16%N []); (Variant "Locked"%string [(Field (Some "who"%string) 0%N (Some "T::AccountId"%string) []); (Field (Some "amount"%string) 6%N (Some "T::Balance"%string) [])] 17%N []); (Variant "Unlocked"%string [(Field (Some "who"%string) 0%N (Some "T::AccountId"%string) []); (Field (Some "amount"%string) 6%N (Some "T::Balance"%string) [])] 18%N []); (Variant "Frozen"%string [(Field (Some "who"%string) 0%N (Some "T::AccountId"%string) []); (Field (Some "amount"%string) 6%N (Some "T::Balance"%string) [])] 19%N []); (Variant "Thawed"%string [(Field (Some "who"%string) 0%N (Some "T::AccountId"%string) []); (Field (Some "amount"%string) 6%N (Some "T::Balance"%string) [])] 20%N [])]) []).
Definition md_t50 : ty := (Ty ["frame_support"%string; "traits"%string; "tokens"%string; "misc"%string; "BalanceStatus"%string] [] (TVariant [(Variant "Free"%string [] 0%N []); (Variant "Reserved"%string [] 1%N [])]) []).
Definition md_t51 : ty := (Ty ["orml_tokens"%string; "module"%string; "Event"%string] [("T"%string,None)] (TVariant [(Variant "Endowed"%string [(Field (Some "currency_id"%string) 52%N (Some "T::CurrencyId"%string) []); (Field (Some "who"%string) 0%N (Some "T::AccountId"%string) []); (Field (Some "amount"%string) 6%N (Some "T::Balance"%string) [])] 0%N []); (Variant "DustLost"%string [(Field (Some "currency_id"%string) 52%N (Some "T::CurrencyId"%string) []); (Field (Some "who"%string) 0%N (Some "T::AccountId"%string) []); (Field (Some "amount"%string) 6%N (Some "T::Balance"%string) [])] 1%N []); (Variant "Transfer"%string [(Field (Some "currency_id"%string) 52%N (Some "T::CurrencyId"%string) []); (Field (Some "from"%string) 0%N (Some "T::AccountId"%string) []); (Field (Some "to"%string) 0%N (Some "T::AccountId"%string) []); (Field (Some "amount"%string) 6%N (Some "T::Balance"%string) [])] 2%N []); (Variant "Reserved"%string [(Field (Some "currency_id"%string) 52%N (Some "T::CurrencyId"%string) []); (Field (Some "who"%string) 0%N (Some "T::AccountId"%string) []); (Field (Some "amount"%string) 6%N (Some "T::Balance"%string) [])] 3%N []); (Variant "Unreserved"%string [(Field (Some "currency_id"%string) 52%N (Some "T::CurrencyId"%string) []); (Field (Some "who"%string) 0%N (Some "T::AccountId"%string) []); (Field (Some "amount"%string) 6%N (Some "T::Balance"%string) [])] 4%N []); (Variant "ReserveRepatriated"%string [(Field (Some "currency_id"%string) 52%N (Some "T::CurrencyId"%string) []); (Field (Some "from"%string) 0%N (Some "T::AccountId"%string) []); (Field (Some "to"%string) 0%N (Some "T::AccountId"%string) []); (Field (Some "amount"%string) 6%N (Some "T::Balance"%string) []); (Field (Some "status"%string) 50%N (Some "BalanceStatus"%string) [])] 5%N []); (Variant "BalanceSet"%string [(Field (Some "currency_id"%string) 52%N (Some "T::CurrencyId"%string) []); (Field (Some "who"%string) 0%N (Some "T::AccountId"%string) []); (Field (Some "free"%string) 6%N (Some "T::Balance"%string) []); (Field (Some "reserved"%string) 6%N (Some "T::Balance"%string) [])] 6%N []); (Variant "TotalIssuanceSet"%string [(Field (Some "currency_id"%string) 52%N (Some "T::CurrencyId"%string) []); (Field (Some "amount"%string) 6%N (Some "T::Balance"%string) [])] 7%N []); (Variant "Withdrawn"%string [(Field (Some "currency_id"%string) 52%N (Some "T::CurrencyId"%string) []); (Field (Some "who"%string) 0%N (Some "T::AccountId"%string) []); (Field (Some "amount"%string) 6%N (Some "T::Balance"%string) [])] 8%N []); (Variant "Slashed"%string [(Field (Some "currency_id"%string) 52%N (Some "T::CurrencyId"%string) []); (Field (Some "who"%string) 0%N (Some "T::AccountId"%string) []); (Field (Some "free_amount"%string) 6%N (Some "T::Balance"%string) []); (Field (Some "reserved_amount"%string) 6%N (Some "T::Balance"%string) [])] 9%N []); (Variant "Deposited"%string [(Field (Some "currency_id"%string) 52%N (Some "T::CurrencyId"%string) []); (Field (Some "who"%string) 0%N (Some "T::AccountId"%string) []); (Field (Some "amount"%string) 6%N (Some "T::Balance"%string) [])] 10%N []); (Variant "LockSet"%string [(Field (Some "lock_id"%string) 55%N (Some "LockIdentifier"%string) []); (Field (Some "currency_id"%string) 52%N (Some "T::CurrencyId"%string) []); (Field (Some "who"%string) 0%N (Some "T::AccountId"%string) []); (Field (Some "amount"%string) 6%N (Some "T::Balance"%string) [])] 11%N []); (Variant "LockRemoved"%string [(Field (Some "lock_id"%string) 55%N (Some "LockIdentifier"%string) []); (Field (Some "currency_id"%string) 52%N (Some "T::CurrencyId"%string) []); (Field (Some "who"%string) 0%N (Some "T::AccountId"%string) [])] 12%N []); (Variant "Locked"%string [(Field (Some "currency_id"%string) 52%N (Some "T::CurrencyId"%string) []); (Field (Some "who"%string) 0%N (Some "T::AccountId"%string) []); (Field (Some "amount"%string) 6%N (Some "T::Balance"%string) [])] 13%N []); (Variant "Unlocked"%string [(Field (Some "currency_id"%string) 52%N (Some "T::CurrencyId"%string) []); (Field (Some "who"%string) 0%N (Some "T::AccountId"%string) []); (Field (Some "amount"%string) 6%N (Some "T::Balance"%string) [])] 14%N []); (Variant "Issued"%string [(Field (Some "currency_id"%string) 52%N (Some "T::CurrencyId"%string) []); (Field (Some "amount"%string) 6%N (Some "T::Balance"%string) [])] 15%N []); (Variant "Rescinded"%string [(Field (Some "currency_id"%string) 52%N (Some "T::CurrencyId"%string) []); (Field (Some "amount"%string) 6%N (Some "T::Balance"%string) [])] 16%N [])]) []).
Definition md_t52 : ty := (Ty ["acala_primitives"%string; "currency"%string; "CurrencyId"%string] [] (TVariant [(Variant "Token"%string [(Field None 53%N (Some "TokenSymbol"%string) [])] 0%N []); (Variant "DexShare"%string [(Field None 54%N (Some "DexShare"%string) []); (Field None 54%N (Some "DexShare"%string) [])] 1%N []); (Variant "Erc20"%string [(Field None 42%N (Some "EvmAddress"%string) [])] 2%N []); (Variant "StableAssetPoolToken"%string [(Field None 4%N (Some "StableAssetPoolId"%string) [])] 3%N []); (Variant "LiquidCrowdloan"%string [(Field None 4%N (Some "Lease"%string) [])] 4%N []); (Variant "ForeignAsset"%string [(Field None 40%N (Some "ForeignAssetId"%string) [])] 5%N [])]) []).
Definition md_t53 : ty := (Ty ["acala_primitives"%string; "currency"%string; "TokenSymbol"%string] [] (TVariant [(Variant "ACA"%string [] 0%N []); (Variant "AUSD"%string [] 1%N []); (Variant "DOT"%string [] 2%N []); (Variant "LDOT"%string [] 3%N []); (Variant "TAP"%string [] 4%N []); (Variant "KAR"%string [] 128%N []); (Variant "KUSD"%string [] 129%N []); (Variant "KSM"%string [] 130%N []); (Variant "LKSM"%string [] 131%N []); (Variant "TAI"%string [] 132%N []); (Variant "BNC"%string [] 168%N []); (Variant "VSKSM"%string [] 169%N []); (Variant "PHA"%string [] 170%N []); (Variant "KINT"%string [] 171%N []); (Variant "KBTC"%string [] 172%N [])]) []).
Definition md_t54 : ty := (Ty ["acala_primitives"%string; "currency"%string; "DexShare"%string] [] (TVariant [(Variant "Token"%string [(Field None 53%N (Some "TokenSymbol"%string) [])] 0%N []); (Variant "Erc20"%string [(Field None 42%N (Some "EvmAddress"%string) [])] 1%N []); (Variant "LiquidCrowdloan"%string [(Field None 4%N (Some "Lease"%string) [])] 2%N []); (Variant "ForeignAsset"%string [(Field None 40%N (Some "ForeignAssetId"%string) [])] 3%N []); (Variant "StableAssetPoolToken"%string [(Field None 4%N (Some "StableAssetPoolId"%string) [])] 4%N [])]) []).
Definition md_t55 : ty := (Ty [] [] (TArray 8%N 2%N) []).
Definition md_t56 : ty := (Ty ["module_currencies"%string; "module"%string; "Event"%string] [("T"%string,None)] (TVariant [(Variant "Transferred"%string [(Field (Some "currency_id"%string) 52%N (Some "CurrencyId"%string) []); (Field (Some "from"%string) 0%N (Some "T::AccountId"%string) []); (Field (Some "to"%string) 0%N (Some "T::AccountId"%string) []); (Field (Some "amount"%string) 6%N (Some "BalanceOf<T>"%string) [])] 0%N []); (Variant "Withdrawn"%string [(Field (Some "currency_id"%string) 52%N (Some "CurrencyId"%string) []); (Field (Some "who"%string) 0%N (Some "T::AccountId"%string) []); (Field (Some "amount"%string) 6%N (Some "BalanceOf<T>"%string) [])] 1%N []); (Variant "Deposited"%string [(Field (Some "currency_id"%string) 52%N (Some "CurrencyId"%string) []); (Field (Some "who"%string) 0%N (Some "T::AccountId"%string) []); (Field (Some "amount"%string) 6%N (Some "BalanceOf<T>"%string) [])] 2%N []); (Variant "DustSwept"%string [(Field (Some "currency_id"%string) 52%N (Some "CurrencyId"%string) []); (Field (Some "who"%string) 0%N (Some "T::AccountId"%string) []); (Field (Some "amount"%string) 6%N (Some "BalanceOf<T>"%string) [])] 3%N [])]) []).
Definition md_t57 : ty := (Ty ["orml_vesting"%string; "module"%string; "Event"%string] [("T"%string,None)] (TVariant [(Variant "VestingScheduleAdded"%string [(Field (Some "from"%string) 0%N (Some "T::AccountId"%string) []); (Field (Some "to"%string) 0%N (Some "T::AccountId"%string) []); (Field (Some "vesting_schedule"%string) 58%N (Some "VestingScheduleOf<T>"%string) [])] 0%N []); (Variant "Claimed"%string [(Field (Some "who"%string) 0%N (Some "T::AccountId"%string) []); (Field (Some "amount"%string) 6%N (Some "BalanceOf<T>"%string) [])] 1%N []); (Variant "VestingSchedulesUpdated"%string [(Field (Some "who"%string) 0%N (Some "T::AccountId"%string) [])] 2%N [])]) []).
Definition md_t58 : ty := (Ty ["orml_vesting"%string; "VestingSchedule"%string] [("BlockNumber"%string,(Some 4%N)); ("Balance"%string,(Some 6%N))] (TComposite [(Field (Some "start"%string) 4%N (Some "BlockNumber"%string) []); (Field (Some "period"%string) 4%N (Some "BlockNumber"%string) []); (Field (Some "period_count"%string) 4%N (Some "u32"%string) []); (Field (Some "per_period"%string) 59%N (Some "Balance"%string) [])]) []).
Definition md_t59 : ty := (Ty [] [] (TCompact 6%N) []).
Definition md_t60 : ty := (Ty ["module_transaction_payment"%string; "module"%string; "Event"%string] [("T"%string,None)] (TVariant [(Variant "ChargeFeePoolEnabled"%string [(Field (Some "sub_account"%string) 0%N (Some "T::AccountId"%string) []); (Field (Some "currency_id"%string) 52%N (Some "CurrencyId"%string) []); (Field (Some "exchange_rate"%string) 61%N (Some "Ratio"%string) []); (Field (Some "pool_size"%string) 6%N (Some "Balance"%string) []); (Field (Some "swap_threshold"%string) 6%N (Some "Balance"%string) [])] 0%N []); (Variant "ChargeFeePoolSwapped"%string [(Field (Some "sub_account"%string) 0%N (Some "T::AccountId"%string) []); (Field (Some "supply_currency_id"%string) 52%N (Some "CurrencyId"%string) []); (Field (Some "old_exchange_rate"%string) 61%N (Some "Ratio"%string) []); (Field (Some "swap_exchange_rate"%string) 61%N (Some "Ratio"%string) []); (Field (Some "new_exchange_rate"%string) 61%N (Some "Ratio"%string) []); (Field (Some "new_pool_size"%string) 6%N (Some "Balance"%string) [])] 1%N []); (Variant "ChargeFeePoolDisabled"%string [(Field (Some "currency_id"%string) 52%N (Some "CurrencyId"%string) []); (Field (Some "foreign_amount"%string) 6%N (Some "Balance"%string) []); (Field (Some "native_amount"%string) 6%N (Some "Balance"%string) [])] 2%N []); (Variant "TransactionFeePaid"%string [(Field (Some "who"%string) 0%N (Some "T::AccountId"%string) []); (Field (Some "actual_fee"%string) 6%N (Some "PalletBalanceOf<T>"%string) []); (Field (Some "actual_tip"%string) 6%N (Some "PalletBalanceOf<T>"%string) []); (Field (Some "actual_surplus"%string) 6%N (Some "PalletBalanceOf<T>"%string) [])] 3%N [])]) []).
Definition md_t61 : ty := (Ty ["sp_arithmetic"%string; "fixed_point"%string; "FixedU128"%string] [] (TComposite [(Field None 6%N (Some "u128"%string) [])]) []).
Definition md_t62 : ty := (Ty ["pallet_treasury"%string; "pallet"%string; "Event"%string] [("T"%string,None); ("I"%string,None)] (TVariant [(Variant "Proposed"%string [(Field (Some "proposal_index"%string) 4%N (Some "ProposalIndex"%string) [])] 0%N []); (Variant "Spending"%string [(Field (Some "budget_remaining"%string) 6%N (Some "BalanceOf<T, I>"%string) [])] 1%N []); (Variant "Awarded"%string [(Field (Some "proposal_index"%string) 4%N (Some "ProposalIndex"%string) []); (Field (Some "award"%string) 6%N (Some "BalanceOf<T, I>"%string) []); (Field (Some "account"%string) 0%N (Some "T::AccountId"%string) [])] 2%N []); (Variant "Rejected"%string [(Field (Some "proposal_index"%string) 4%N (Some "ProposalIndex"%string) []); (Field (Some "slashed"%string) 6%N (Some "BalanceOf<T, I>"%string) [])] 3%N []); (Variant "Burnt"%string [(Field (Some "burnt_funds"%string) 6%N (Some "BalanceOf<T, I>"%string) [])] 4%N []); (Variant "Rollover"%string [(Field (Some "rollover_balance"%string) 6%N (Some "BalanceOf<T, I>"%string) [])] 5%N []); (Variant "Deposit"%string [(Field (Some "value"%string) 6%N (Some "BalanceOf<T, I>"%string) [])] 6%N []); (Variant "SpendApproved"%string [(Field (Some "proposal_index"%string) 4%N (Some "ProposalIndex"%string) []); (Field (Some "amount"%string) 6%N (Some "BalanceOf<T, I>"%string) []); (Field (Some "beneficiary"%string) 0%N (Some "T::AccountId"%string) [])] 7%N []); (Variant "UpdatedInactive"%string [(Field (Some "reactivated"%string) 6%N (Some "BalanceOf<T, I>"%string) []); (Field (Some "deactivated"%string) 6%N (Some "BalanceOf<T, I>"%string) [])] 8%N [])]) []).
Definition md_t63 : ty := (Ty ["pallet_bounties"%string; "pallet"%string; "Event"%string] [("T"%string,None); ("I"%string,None)] (TVariant [(Variant "BountyProposed"%string [(Field (Some "index"%string) 4%N (Some "BountyIndex"%string) [])] 0%N []); (Variant "BountyRejected"%string [(Field (Some "index"%string) 4%N (Some "BountyIndex"%string) []); (Field (Some "bond"%string) 6%N (Some "BalanceOf<T, I>"%string) [])] 1%N []); (Variant "BountyBecameActive"%string [(Field (Some "index"%string) 4%N (Some "BountyIndex"%string) [])] 2%N []); (Variant "BountyAwarded"%string [(Field (Some "index"%string) 4%N (Some "BountyIndex"%string) []); (Field (Some "beneficiary"%string) 0%N (Some "T::AccountId"%string) [])] 3%N []); (Variant "BountyClaimed"%string [(Field (Some "index"%string) 4%N (Some "BountyIndex"%string) []); (Field (Some "payout"%string) 6%N (Some "BalanceOf<T, I>"%string) []); (Field (Some "beneficiary"%string) 0%N (Some "T::AccountId"%string) [])] 4%N []); (Variant "BountyCanceled"%string [(Field (Some "index"%string) 4%N (Some "BountyIndex"%string) [])] 5%N []); (Variant "BountyExtended"%string [(Field (Some "index"%string) 4%N (Some "BountyIndex"%string) [])] 6%N [])]) []).
Definition md_t64 : ty := (Ty ["pallet_tips"%string; "pallet"%string; "Event"%string] [("T"%string,None); ("I"%string,None)] (TVariant [(Variant "NewTip"%string [(Field (Some "tip_hash"%string) 12%N (Some "T::Hash"%string) [])] 0%N []); (Variant "TipClosing"%string [(Field (Some "tip_hash"%string) 12%N (Some "T::Hash"%string) [])] 1%N []); (Variant "TipClosed"%string [(Field (Some "tip_hash"%string) 12%N (Some "T::Hash"%string) []); (Field (Some "who"%string) 0%N (Some "T::AccountId"%string) []); (Field (Some "payout"%string) 6%N (Some "BalanceOf<T, I>"%string) [])] 2%N []); (Variant "TipRetracted"%string [(Field (Some "tip_hash"%string) 12%N (Some "T::Hash"%string) [])] 3%N []); (Variant "TipSlashed"%string [(Field (Some "tip_hash"%string) 12%N (Some "T::Hash"%string) []); (Field (Some "finder"%string) 0%N (Some "T::AccountId"%string) []); (Field (Some "deposit"%string) 6%N (Some "BalanceOf<T, I>"%string) [])] 4%N [])]) []).
Definition md_t65 : ty := (Ty ["module_collator_selection"%string; "pallet"%string; "Event"%string] [("T"%string,None)] (TVariant [(Variant "NewInvulnerables"%string [(Field (Some "new_invulnerables"%string) 66%N (Some "Vec<T::AccountId>"%string) [])] 0%N []); (Variant "NewDesiredCandidates"%string [(Field (Some "new_desired_candidates"%string) 4%N (Some "u32"%string) [])] 1%N []); (Variant "NewCandidacyBond"%string [(Field (Some "new_candidacy_bond"%string) 6%N (Some "BalanceOf<T>"%string) [])] 2%N []); (Variant "CandidateAdded"%string [(Field (Some "who"%string) 0%N (Some "T::AccountId"%string) []); (Field (Some "bond"%string) 6%N (Some "BalanceOf<T>"%string) [])] 3%N []); (Variant "CandidateRemoved"%string [(Field (Some "who"%string) 0%N (Some "T::AccountId"%string) [])] 4%N [])]) []).
Definition md_t66 : ty := (Ty [] [] (TSequence 0%N) []).
Definition md_t67 : ty := (Ty ["pallet_session"%string; "pallet"%string; "Event"%string] [] (TVariant [(Variant "NewSession"%string [(Field (Some "session_index"%string) 4%N (Some "SessionIndex"%string) [])] 0%N [])]) []).
Definition md_t68 : ty := (Ty ["module_session_manager"%string; "module"%string; "Event"%string] [("T"%string,None)] (TVariant [(Variant "ScheduledSessionDuration"%string [(Field (Some "block_number"%string) 4%N (Some "BlockNumberFor<T>"%string) []); (Field (Some "session_index"%string) 4%N (Some "SessionIndex"%string) []); (Field (Some "session_duration"%string) 4%N (Some "BlockNumberFor<T>"%string) [])] 0%N [])]) []).
Definition md_t69 : ty := (Ty ["cumulus_pallet_xcmp_queue"%string; "pallet"%string; "Event"%string] [("T"%string,None)] (TVariant [(Variant "Success"%string [(Field (Some "message_hash"%string) 1%N (Some "XcmHash"%string) []); (Field (Some "message_id"%string) 1%N (Some "XcmHash"%string) []); (Field (Some "weight"%string) 9%N (Some "Weight"%string) [])] 0%N []); (Variant "Fail"%string [(Field (Some "message_hash"%string) 1%N (Some "XcmHash"%string) []); (Field (Some "message_id"%string) 1%N (Some "XcmHash"%string) []); (Field (Some "error"%string) 70%N (Some "XcmError"%string) []); (Field (Some "weight"%string) 9%N (Some "Weight"%string) [])] 1%N []); (Variant "BadVersion"%string [(Field (Some "message_hash"%string) 1%N (Some "XcmHash"%string) [])] 2%N []); (Variant "BadFormat"%string [(Field (Some "message_hash"%string) 1%N (Some "XcmHash"%string) [])] 3%N []); (Variant "XcmpMessageSent"%string [(Field (Some "message_hash"%string) 1%N (Some "XcmHash"%string) [])] 4%N []); (Variant "OverweightEnqueued"%string [(Field (Some "sender"%string) 71%N (Some "ParaId"%string) []); (Field (Some "sent_at"%string) 4%N (Some "RelayBlockNumber"%string) []); (Field (Some "index"%string) 11%N (Some "OverweightIndex"%string) []); (Field (Some "required"%string) 9%N (Some "Weight"%string) [])] 5%N []); (Variant "OverweightServiced"%string [(Field (Some "index"%string) 11%N (Some "OverweightIndex"%string) []); (Field (Some "used"%string) 9%N (Some "Weight"%string) [])] 6%N [])]) []).
Definition md_t70 : ty := (Ty ["xcm"%string; "v3"%string; "traits"%string; "Error"%string] [] (TVariant [(Variant "Overflow"%string [] 0%N []); (Variant "Unimplemented"%string [] 1%N []); (Variant "UntrustedReserveLocation"%string [] 2%N []); (Variant "UntrustedTeleportLocation"%string [] 3%N []); (Variant "LocationFull"%string [] 4%N []); (Variant "LocationNotInvertible"%string [] 5%N []); (Variant "BadOrigin"%string [] 6%N []); (Variant "InvalidLocation"%string [] 7%N []); (Variant "AssetNotFound"%string [] 8%N []); (Variant "FailedToTransactAsset"%string [] 9%N []); (Variant "NotWithdrawable"%string [] 10%N []); (Variant "LocationCannotHold"%string [] 11%N []); (Variant "ExceedsMaxMessageSize"%string [] 12%N []); (Variant "DestinationUnsupported"%string [] 13%N []); (Variant "Transport"%string [] 14%N []); (Variant "Unroutable"%string [] 15%N []); (Variant "UnknownClaim"%string [] 16%N []); (Variant "FailedToDecode"%string [] 17%N []); (Variant "MaxWeightInvalid"%string [] 18%N []); (Variant "NotHoldingFees"%string [] 19%N []); (Variant "TooExpensive"%string [] 20%N []); (Variant "Trap"%string [(Field None 11%N (Some "u64"%string) [])] 21%N []); (Variant "ExpectationFalse"%string [] 22%N []); (Variant "PalletNotFound"%string [] 23%N []); (Variant "NameMismatch"%string [] 24%N []); (Variant "VersionIncompatible"%string [] 25%N []); (Variant "HoldingWouldOverflow"%string [] 26%N []); (Variant "ExportError"%string [] 27%N []); (Variant "ReanchorFailed"%string [] 28%N []); (Variant "NoDeal"%string [] 29%N []); (Variant "FeesNotMet"%string [] 30%N []); (Variant "LockError"%string [] 31%N []); (Variant "NoPermission"%string [] 32%N []); (Variant "Unanchored"%string [] 33%N []); (Variant "NotDepositable"%string [] 34%N []); (Variant "UnhandledXcmVersion"%string [] 35%N []); (Variant "WeightLimitReached"%string [(Field None 9%N (Some "Weight"%string) [])] 36%N []); (Variant "Barrier"%string [] 37%N []); (Variant "WeightNotComputable"%string [] 38%N []); (Variant "ExceedsStackLimit"%string [] 39%N [])]) []).
Definition md_t71 : ty := (Ty ["polkadot_parachain"%string; "primitives"%string; "Id"%string] [] (TComposite [(Field None 4%N (Some "u32"%string) [])]) []).
Definition md_t72 : ty := (Ty ["pallet_xcm"%string; "pallet"%string; "Event"%string] [("T"%string,None)] (TVariant [(Variant "Attempted"%string [(Field (Some "outcome"%string) 73%N (Some "xcm::latest::Outcome"%string) [])] 0%N []); (Variant "Sent"%string [(Field (Some "origin"%string) 74%N (Some "MultiLocation"%string) []); (Field (Some "destination"%string) 74%N (Some "MultiLocation"%string) []); (Field (Some "message"%string) 82%N (Some "Xcm<()>"%string) []); (Field (Some "message_id"%string) 1%N (Some "XcmHash"%string) [])] 1%N []); (Variant "UnexpectedResponse"%string [(Field (Some "origin"%string) 74%N (Some "MultiLocation"%string) []); (Field (Some "query_id"%string) 11%N (Some "QueryId"%string) [])] 2%N []); (Variant "ResponseReady"%string [(Field (Some "query_id"%string) 11%N (Some "QueryId"%string) []); (Field (Some "response"%string) 92%N (Some "Response"%string) [])] 3%N []); (Variant "Notified"%string [(Field (Some "query_id"%string) 11%N (Some "QueryId"%string) []); (Field (Some "pallet_index"%string) 2%N (Some "u8"%string) []); (Field (Some "call_index"%string) 2%N (Some "u8"%string) [])] 4%N []); (Variant "NotifyOverweight"%string [(Field (Some "query_id"%string) 11%N (Some "QueryId"%string) []); (Field (Some "pallet_index"%string) 2%N (Some "u8"%string) []); (Field (Some "call_index"%string) 2%N (Some "u8"%string) []); (Field (Some "actual_weight"%string) 9%N (Some "Weight"%string) []); (Field (Some "max_budgeted_weight"%string) 9%N (Some "Weight"%string) [])] 5%N []); (Variant "NotifyDispatchError"%string [(Field (Some "query_id"%string) 11%N (Some "QueryId"%string) []); (Field (Some "pallet_index"%string) 2%N (Some "u8"%string) []); (Field (Some "call_index"%string) 2%N (Some "u8"%string) [])] 6%N []); (Variant "NotifyDecodeFailed"%string [(Field (Some "query_id"%string) 11%N (Some "QueryId"%string) []); (Field (Some "pallet_index"%string) 2%N (Some "u8"%string) []); (Field (Some "call_index"%string) 2%N (Some "u8"%string) [])] 7%N []); (Variant "InvalidResponder"%string [(Field (Some "origin"%string) 74%N (Some "MultiLocation"%string) []); (Field (Some "query_id"%string) 11%N (Some "QueryId"%string) []); (Field (Some "expected_location"%string) 101%N (Some "Option<MultiLocation>"%string) [])] 8%N []); (Variant "InvalidResponderVersion"%string [(Field (Some "origin"%string) 74%N (Some "MultiLocation"%string) []); (Field (Some "query_id"%string) 11%N (Some "QueryId"%string) [])] 9%N []); (Variant "ResponseTaken"%string [(Field (Some "query_id"%string) 11%N (Some "QueryId"%string) [])] 10%N []); (Variant "AssetsTrapped"%string [(Field (Some "hash"%string) 12%N (Some "H256"%string) []); (Field (Some "origin"%string) 74%N (Some "MultiLocation"%string) []); (Field (Some "assets"%string) 110%N (Some "VersionedMultiAssets"%string) [])] 11%N []); (Variant "VersionChangeNotified"%string [(Field (Some "destination"%string) 74%N (Some "MultiLocation"%string) []); (Field (Some "result"%string) 4%N (Some "XcmVersion"%string) []); (Field (Some "cost"%string) 85%N (Some "MultiAssets"%string) []); (Field (Some "message_id"%string) 1%N (Some "XcmHash"%string) [])] 12%N []); (Variant "SupportedVersionChanged"%string [(Field (Some "location"%string) 74%N (Some "MultiLocation"%string) []); (Field (Some "version"%string) 4%N (Some "XcmVersion"%string) [])] 13%N []); (Variant "NotifyTargetSendFail"%string [(Field (Some "location"%string) 74%N (Some "MultiLocation"%string) []); (Field (Some "query_id"%string) 11%N (Some "QueryId"%string) []); (Field (Some "error"%string) 70%N (Some "XcmError"%string) [])] 14%N []); (Variant "NotifyTargetMigrationFail"%string [(Field (Some "location"%string) 124%N (Some "VersionedMultiLocation"%string) []); (Field (Some "query_id"%string) 11%N (Some "QueryId"%string) [])] 15%N []); (Variant "InvalidQuerierVersion"%string [(Field (Some "origin"%string) 74%N (Some "MultiLocation"%string) []); (Field (Some "query_id"%string) 11%N (Some "QueryId"%string) [])] 16%N []); (Variant "InvalidQuerier"%string [(Field (Some "origin"%string) 74%N (Some "MultiLocation"%string) []); (Field (Some "query_id"%string) 11%N (Some "QueryId"%string) []); (Field (Some "expected_querier"%string) 74%N (Some "MultiLocation"%string) []); (Field (Some "maybe_actual_querier"%string) 101%N (Some "Option<MultiLocation>"%string) [])] 17%N []); (Variant "VersionNotifyStarted"%string [(Field (Some "destination"%string) 74%N (Some "MultiLocation"%string) []); (Field (Some "cost"%string) 85%N (Some "MultiAssets"%string) []); (Field (Some "message_id"%string) 1%N (Some "XcmHash"%string) [])] 18%N []); (Variant "VersionNotifyRequested"%string [(Field (Some "destination"%string) 74%N (Some "MultiLocation"%string) []); (Field (Some "cost"%string) 85%N (Some "MultiAssets"%string) []); (Field (Some "message_id"%string) 1%N (Some "XcmHash"%string) [])] 19%N []); (Variant "VersionNotifyUnrequested"%string [(Field (Some "destination"%string) 74%N (Some "MultiLocation"%string) []); (Field (Some "cost"%string) 85%N (Some "MultiAssets"%string) []); (Field (Some "message_id"%string) 1%N (Some "XcmHash"%string) [])] 20%N []); (Variant "FeesPaid"%string [(Field (Some "paying"%string) 74%N (Some "MultiLocation"%string) []); (Field (Some "fees"%string) 85%N (Some "MultiAssets"%string) [])] 21%N []); (Variant "AssetsClaimed"%string [(Field (Some "hash"%string) 12%N (Some "H256"%string) []); (Field (Some "origin"%string) 74%N (Some "MultiLocation"%string) []); (Field (Some "assets"%string) 110%N (Some "VersionedMultiAssets"%string) [])] 22%N [])]) []).
Definition md_t73 : ty := (Ty ["xcm"%string; "v3"%string; "traits"%string; "Outcome"%string] [] (TVariant [(Variant "Complete"%string [(Field None 9%N (Some "Weight"%string) [])] 0%N []); (Variant "Incomplete"%string [(Field None 9%N (Some "Weight"%string) []); (Field None 70%N (Some "Error"%string) [])] 1%N []); (Variant "Error"%string [(Field None 70%N (Some "Error"%string) [])] 2%N [])]) []).
Definition md_t74 : ty := (Ty ["xcm"%string; "v3"%string; "multilocation"%string; "MultiLocation"%string] [] (TComposite [(Field (Some "parents"%string) 2%N (Some "u8"%string) []); (Field (Some "interior"%string) 75%N (Some "Junctions"%string) [])]) []).
Definition md_t75 : ty := (Ty ["xcm"%string; "v3"%string; "junctions"%string; "Junctions"%string] [] (TVariant [(Variant "Here"%string [] 0%N []); (Variant "X1"%string [(Field None 76%N (Some "Junction"%string) [])] 1%N []); (Variant "X2"%string [(Field None 76%N (Some "Junction"%string) []); (Field None 76%N (Some "Junction"%string) [])] 2%N []); (Variant "X3"%string [(Field None 76%N (Some "Junction"%string) []); (Field None 76%N (Some "Junction"%string) []); (Field None 76%N (Some "Junction"%string) [])] 3%N []); (Variant "X4"%string [(Field None 76%N (Some "Junction"%string) []); (Field None 76%N (Some "Junction"%string) []); (Field None 76%N (Some "Junction"%string) []); (Field None 76%N (Some "Junction"%string) [])] 4%N []); (Variant "X5"%string [(Field None 76%N (Some "Junction"%string) []); (Field None 76%N (Some "Junction"%string) []); (Field None 76%N (Some "Junction"%string) []); (Field None 76%N (Some "Junction"%string) []); (Field None 76%N (Some "Junction"%string) [])] 5%N []); (Variant "X6"%string [(Field None 76%N (Some "Junction"%string) []); (Field None 76%N (Some "Junction"%string) []); (Field None 76%N (Some "Junction"%string) []); (Field None 76%N (Some "Junction"%string) []); (Field None 76%N (Some "Junction"%string) []); (Field None 76%N (Some "Junction"%string) [])] 6%N []); (Variant "X7"%string [(Field None 76%N (Some "Junction"%string) []); (Field None 76%N (Some "Junction"%string) []); (Field None 76%N (Some "Junction"%string) []); (Field None 76%N (Some "Junction"%string) []); (Field None 76%N (Some "Junction"%string) []); (Field None 76%N (Some "Junction"%string) []); (Field None 76%N (Some "Junction"%string) [])] 7%N []); (Variant "X8"%string [(Field None 76%N (Some "Junction"%string) []); (Field None 76%N (Some "Junction"%string) []); (Field None 76%N (Some "Junction"%string) []); (Field None 76%N (Some "Junction"%string) []); (Field None 76%N (Some "Junction"%string) []); (Field None 76%N (Some "Junction"%string) []); (Field None 76%N (Some "Junction"%string) []); (Field None 76%N (Some "Junction"%string) [])] 8%N [])]) []).
Definition md_t76 : ty := (Ty ["xcm"%string; "v3"%string; "junction"%string; "Junction"%string] [] (TVariant [(Variant "Parachain"%string [(Field None 77%N (Some "u32"%string) [])] 0%N []); (Variant "AccountId32"%string [(Field (Some "network"%string) 78%N (Some "Option<NetworkId>"%string) []); (Field (Some "id"%string) 1%N (Some "[u8; 32]"%string) [])] 1%N []); (Variant "AccountIndex64"%string [(Field (Some "network"%string) 78%N (Some "Option<NetworkId>"%string) []); (Field (Some "index"%string) 10%N (Some "u64"%string) [])] 2%N []); (Variant "AccountKey20"%string [(Field (Some "network"%string) 78%N (Some "Option<NetworkId>"%string) []); (Field (Some "key"%string) 43%N (Some "[u8; 20]"%string) [])] 3%N []); (Variant "PalletInstance"%string [(Field None 2%N (Some "u8"%string) [])] 4%N []); (Variant "GeneralIndex"%string [(Field None 59%N (Some "u128"%string) [])] 5%N []); (Variant "GeneralKey"%string [(Field (Some "length"%string) 2%N (Some "u8"%string) []); (Field (Some "data"%string) 1%N (Some "[u8; 32]"%string) [])] 6%N []); (Variant "OnlyChild"%string [] 7%N []); (Variant "Plurality"%string [(Field (Some "id"%string) 80%N (Some "BodyId"%string) []); (Field (Some "part"%string) 81%N (Some "BodyPart"%string) [])] 8%N []); (Variant "GlobalConsensus"%string [(Field None 79%N (Some "NetworkId"%string) [])] 9%N [])]) []).
Definition md_t77 : ty := (Ty [] [] (TCompact 4%N) []).
Definition md_t78 : ty := (Ty ["Option"%string] [("T"%string,(Some 79%N))] (TVariant [(Variant "None"%string [] 0%N []); (Variant "Some"%string [(Field None 79%N None [])] 1%N [])]) []).
Definition md_t79 : ty := (Ty ["xcm"%string; "v3"%string; "junction"%string; "NetworkId"%string] [] (TVariant [(Variant "ByGenesis"%string [(Field None 1%N (Some "[u8; 32]"%string) [])] 0%N []); (Variant "ByFork"%string [(Field (Some "block_number"%string) 11%N (Some "u64"%string) []); (Field (Some "block_hash"%string) 1%N (Some "[u8; 32]"%string) [])] 1%N []); (Variant "Polkadot"%string [] 2%N []); (Variant "Kusama"%string [] 3%N []); (Variant "Westend"%string [] 4%N []); (Variant "Rococo"%string [] 5%N []); (Variant "Wococo"%string [] 6%N []); (Variant "Ethereum"%string [(Field (Some "chain_id"%string) 10%N (Some "u64"%string) [])] 7%N []); (Variant "BitcoinCore"%string [] 8%N []); (Variant "BitcoinCash"%string [] 9%N [])]) []).
Definition md_t80 : ty := (Ty ["xcm"%string; "v3"%string; "junction"%string; "BodyId"%string] [] (TVariant [(Variant "Unit"%string [] 0%N []); (Variant "Moniker"%string [(Field None 17%N (Some "[u8; 4]"%string) [])] 1%N []); (Variant "Index"%string [(Field None 77%N (Some "u32"%string) [])] 2%N []); (Variant "Executive"%string [] 3%N []); (Variant "Technical"%string [] 4%N []); (Variant "Legislative"%string [] 5%N []); (Variant "Judicial"%string [] 6%N []); (Variant "Defense"%string [] 7%N []); (Variant "Administration"%string [] 8%N []); (Variant "Treasury"%string [] 9%N [])]) []).
Definition md_t81 : ty := (Ty ["xcm"%string; "v3"%string; "junction"%string; "BodyPart"%string] [] (TVariant [(Variant "Voice"%string [] 0%N []); (Variant "Members"%string [(Field (Some "count"%string) 77%N (Some "u32"%string) [])] 1%N []); (Variant "Fraction"%string [(Field (Some "nom"%string) 77%N (Some "u32"%string) []); (Field (Some "denom"%string) 77%N (Some "u32"%string) [])] 2%N []); (Variant "AtLeastProportion"%string [(Field (Some "nom"%string) 77%N (Some "u32"%string) []); (Field (Some "denom"%string) 77%N (Some "u32"%string) [])] 3%N []); (Variant "MoreThanProportion"%string [(Field (Some "nom"%string) 77%N (Some "u32"%string) []); (Field (Some "denom"%string) 77%N (Some "u32"%string) [])] 4%N [])]) []).
Definition md_t82 : ty := (Ty ["xcm"%string; "v3"%string; "Xcm"%string] [("Call"%string,None)] (TComposite [(Field None 83%N (Some "Vec<Instruction<Call>>"%string) [])]) []).
Definition md_t83 : ty := (Ty [] [] (TSequence 84%N) []).
Definition md_t84 : ty := (Ty ["xcm"%string; "v3"%string; "Instruction"%string] [("Call"%string,None)] (TVariant [(Variant "WithdrawAsset"%string [(Field None 85%N (Some "MultiAssets"%string) [])] 0%N []); (Variant "ReserveAssetDeposited"%string [(Field None 85%N (Some "MultiAssets"%string) [])] 1%N []); (Variant "ReceiveTeleportedAsset"%string [(Field None 85%N (Some "MultiAssets"%string) [])] 2%N []); (Variant "QueryResponse"%string [(Field (Some "query_id"%string) 10%N (Some "QueryId"%string) []); (Field (Some "response"%string) 92%N (Some "Response"%string) []); (Field (Some "max_weight"%string) 9%N (Some "Weight"%string) []); (Field (Some "querier"%string) 101%N (Some "Option<MultiLocation>"%string) [])] 3%N []); (Variant "TransferAsset"%string [(Field (Some "assets"%string) 85%N (Some "MultiAssets"%string) []); (Field (Some "beneficiary"%string) 74%N (Some "MultiLocation"%string) [])] 4%N []); (Variant "TransferReserveAsset"%string [(Field (Some "assets"%string) 85%N (Some "MultiAssets"%string) []); (Field (Some "dest"%string) 74%N (Some "MultiLocation"%string) []); (Field (Some "xcm"%string) 82%N (Some "Xcm<()>"%string) [])] 5%N []); (Variant "Transact"%string [(Field (Some "origin_kind"%string) 102%N (Some "OriginKind"%string) []); (Field (Some "require_weight_at_most"%string) 9%N (Some "Weight"%string) []); (Field (Some "call"%string) 103%N (Some "DoubleEncoded<Call>"%string) [])] 6%N []); (Variant "HrmpNewChannelOpenRequest"%string [(Field (Some "sender"%string) 77%N (Some "u32"%string) []); (Field (Some "max_message_size"%string) 77%N (Some "u32"%string) []); (Field (Some "max_capacity"%string) 77%N (Some "u32"%string) [])] 7%N []); (Variant "HrmpChannelAccepted"%string [(Field (Some "recipient"%string) 77%N (Some "u32"%string) [])] 8%N []); (Variant "HrmpChannelClosing"%string [(Field (Some "initiator"%string) 77%N (Some "u32"%string) []); (Field (Some "sender"%string) 77%N (Some "u32"%string) []); (Field (Some "recipient"%string) 77%N (Some "u32"%string) [])] 9%N []); (Variant "ClearOrigin"%string [] 10%N []); (Variant "DescendOrigin"%string [(Field None 75%N (Some "InteriorMultiLocation"%string) [])] 11%N []); (Variant "ReportError"%string [(Field None 104%N (Some "QueryResponseInfo"%string) [])] 12%N []); (Variant "DepositAsset"%string [(Field (Some "assets"%string) 105%N (Some "MultiAssetFilter"%string) []); (Field (Some "beneficiary"%string) 74%N (Some "MultiLocation"%string) [])] 13%N []); (Variant "DepositReserveAsset"%string [(Field (Some "assets"%string) 105%N (Some "MultiAssetFilter"%string) []); (Field (Some "dest"%string) 74%N (Some "MultiLocation"%string) []); (Field (Some "xcm"%string) 82%N (Some "Xcm<()>"%string) [])] 14%N []); (Variant "ExchangeAsset"%string [(Field (Some "give"%string) 105%N (Some "MultiAssetFilter"%string) []); (Field (Some "want"%string) 85%N (Some "MultiAssets"%string) []); (Field (Some "maximal"%string) 108%N (Some "bool"%string) [])] 15%N []); (Variant "InitiateReserveWithdraw"%string [(Field (Some "assets"%string) 105%N (Some "MultiAssetFilter"%string) []); (Field (Some "reserve"%string) 74%N (Some "MultiLocation"%string) []); (Field (Some "xcm"%string) 82%N (Some "Xcm<()>"%string) [])] 16%N []); (Variant "InitiateTeleport"%string [(Field (Some "assets"%string) 105%N (Some "MultiAssetFilter"%string) []); (Field (Some "dest"%string) 74%N (Some "MultiLocation"%string) []); (Field (Some "xcm"%string) 82%N (Some "Xcm<()>"%string) [])] 17%N []); (Variant "ReportHolding"%string [(Field (Some "response_info"%string) 104%N (Some "QueryResponseInfo"%string) []); (Field (Some "assets"%string) 105%N (Some "MultiAssetFilter"%string) [])] 18%N []); (Variant "BuyExecution"%string [(Field (Some "fees"%string) 87%N (Some "MultiAsset"%string) []); (Field (Some "weight_limit"%string) 109%N (Some "WeightLimit"%string) [])] 19%N []); (Variant "RefundSurplus"%string [] 20%N []); (Variant "SetErrorHandler"%string [(Field None 82%N (Some "Xcm<Call>"%string) [])] 21%N []); (Variant "SetAppendix"%string [(Field None 82%N (Some "Xcm<Call>"%string) [])] 22%N []); (Variant "ClearError"%string [] 23%N []); (Variant "ClaimAsset"%string [(Field (Some "assets"%string) 85%N (Some "MultiAssets"%string) []); (Field (Some "ticket"%string) 74%N (Some "MultiLocation"%string) [])] 24%N []); (Variant "Trap"%string [(Field None 10%N (Some "u64"%string) [])] 25%N []); (Variant "SubscribeVersion"%string [(Field (Some "query_id"%string) 10%N (Some "QueryId"%string) []); (Field (Some "max_response_weight"%string) 9%N (Some "Weight"%string) [])] 26%N []); (Variant "UnsubscribeVersion"%string [] 27%N []); (Variant "BurnAsset"%string [(Field None 85%N (Some "MultiAssets"%string) [])] 28%N []); (Variant "ExpectAsset"%string [(Field None 85%N (Some "MultiAssets"%string) [])] 29%N []); (Variant "ExpectOrigin"%string [(Field None 101%N (Some "Option<MultiLocation>"%string) [])] 30%N []); (Variant "ExpectError"%string [(Field None 93%N (Some "Option<(u32, Error)>"%string) [])] 31%N []); (Variant "ExpectTransactStatus"%string [(Field None 99%N (Some "MaybeErrorCode"%string) [])] 32%N []); (Variant "QueryPallet"%string [(Field (Some "module_name"%string) 13%N (Some "Vec<u8>"%string) []); (Field (Some "response_info"%string) 104%N (Some "QueryResponseInfo"%string) [])] 33%N []); (Variant "ExpectPallet"%string [(Field (Some "index"%string) 77%N (Some "u32"%string) []); (Field (Some "name"%string) 13%N (Some "Vec<u8>"%string) []); (Field (Some "module_name"%string) 13%N (Some "Vec<u8>"%string) []); (Field (Some "crate_major"%string) 77%N (Some "u32"%string) []); (Field (Some "min_crate_minor"%string) 77%N (Some "u32"%string) [])] 34%N []); (Variant "ReportTransactStatus"%string [(Field None 104%N (Some "QueryResponseInfo"%string) [])] 35%N []); (Variant "ClearTransactStatus"%string [] 36%N []); (Variant "UniversalOrigin"%string [(Field None 76%N (Some "Junction"%string) [])] 37%N []); (Variant "ExportMessage"%string [(Field (Some "network"%string) 79%N (Some "NetworkId"%string) []); (Field (Some "destination"%string) 75%N (Some "InteriorMultiLocation"%string) []); (Field (Some "xcm"%string) 82%N (Some "Xcm<()>"%string) [])] 38%N []); (Variant "LockAsset"%string [(Field (Some "asset"%string) 87%N (Some "MultiAsset"%string) []); (Field (Some "unlocker"%string) 74%N (Some "MultiLocation"%string) [])] 39%N []); (Variant "UnlockAsset"%string [(Field (Some "asset"%string) 87%N (Some "MultiAsset"%string) []); (Field (Some "target"%string) 74%N (Some "MultiLocation"%string) [])] 40%N []); (Variant "NoteUnlockable"%string [(Field (Some "asset"%string) 87%N (Some "MultiAsset"%string) []); (Field (Some "owner"%string) 74%N (Some "MultiLocation"%string) [])] 41%N []); (Variant "RequestUnlock"%string [(Field (Some "asset"%string) 87%N (Some "MultiAsset"%string) []); (Field (Some "locker"%string) 74%N (Some "MultiLocation"%string) [])] 42%N []); (Variant "SetFeesMode"%string [(Field (Some "jit_withdraw"%string) 108%N (Some "bool"%string) [])] 43%N []); (Variant "SetTopic"%string [(Field None 1%N (Some "[u8; 32]"%string) [])] 44%N []); (Variant "ClearTopic"%string [] 45%N []); (Variant "AliasOrigin"%string [(Field None 74%N (Some "MultiLocation"%string) [])] 46%N []); (Variant "UnpaidExecution"%string [(Field (Some "weight_limit"%string) 109%N (Some "WeightLimit"%string) []); (Field (Some "check_origin"%string) 101%N (Some "Option<MultiLocation>"%string) [])] 47%N [])]) []).
Definition md_t85 : ty := (Ty ["xcm"%string; "v3"%string; "multiasset"%string; "MultiAssets"%string] [] (TComposite [(Field None 86%N (Some "Vec<MultiAsset>"%string) [])]) []).
Definition md_t86 : ty := (Ty [] [] (TSequence 87%N) []).
Definition md_t87 : ty := (Ty ["xcm"%string; "v3"%string; "multiasset"%string; "MultiAsset"%string] [] (TComposite [(Field (Some "id"%string) 88%N (Some "AssetId"%string) []); (Field (Some "fun"%string) 89%N (Some "Fungibility"%string) [])]) []).
Definition md_t88 : ty := (Ty ["xcm"%string; "v3"%string; "multiasset"%string; "AssetId"%string] [] (TVariant [(Variant "Concrete"%string [(Field None 74%N (Some "MultiLocation"%string) [])] 0%N []); (Variant "Abstract"%string [(Field None 1%N (Some "[u8; 32]"%string) [])] 1%N [])]) []).
Definition md_t89 : ty := (Ty ["xcm"%string; "v3"%string; "multiasset"%string; "Fungibility"%string] [] (TVariant [(Variant "Fungible"%string [(Field None 59%N (Some "u128"%string) [])] 0%N []); (Variant "NonFungible"%string [(Field None 90%N (Some "AssetInstance"%string) [])] 1%N [])]) []).
Definition md_t90 : ty := (Ty ["xcm"%string; "v3"%string; "multiasset"%string; "AssetInstance"%string] [] (TVariant [(Variant "Undefined"%string [] 0%N []); (Variant "Index"%string [(Field None 59%N (Some "u128"%string) [])] 1%N []); (Variant "Array4"%string [(Field None 17%N (Some "[u8; 4]"%string) [])] 2%N []); (Variant "Array8"%string [(Field None 55%N (Some "[u8; 8]"%string) [])] 3%N []); (Variant "Array16"%string [(Field None 91%N (Some "[u8; 16]"%string) [])] 4%N []); (Variant "Array32"%string [(Field None 1%N (Some "[u8; 32]"%string) [])] 5%N [])]) []).
Definition md_t91 : ty := (Ty [] [] (TArray 16%N 2%N) []).
Definition md_t92 : ty := (Ty ["xcm"%string; "v3"%string; "Response"%string] [] (TVariant [(Variant "Null"%string [] 0%N []); (Variant "Assets"%string [(Field None 85%N (Some "MultiAssets"%string) [])] 1%N []); (Variant "ExecutionResult"%string [(Field None 93%N (Some "Option<(u32, Error)>"%string) [])] 2%N []); (Variant "Version"%string [(Field None 4%N (Some "super::Version"%string) [])] 3%N []); (Variant "PalletsInfo"%string [(Field None 95%N (Some "BoundedVec<PalletInfo, MaxPalletsInfo>"%string) [])] 4%N []); (Variant "DispatchResult"%string [(Field None 99%N (Some "MaybeErrorCode"%string) [])] 5%N [])]) []).
Definition md_t93 : ty := (Ty ["Option"%string] [("T"%string,(Some 94%N))] (TVariant [(Variant "None"%string [] 0%N []); (Variant "Some"%string [(Field None 94%N None [])] 1%N [])]) []).
Definition md_t94 : ty := (Ty [] [] (TTuple [4%N; 70%N]) []).
Definition md_t95 : ty := (Ty ["bounded_collections"%string; "bounded_vec"%string; "BoundedVec"%string] [("T"%string,(Some 96%N)); ("S"%string,None)] (TComposite [(Field None 98%N (Some "Vec<T>"%string) [])]) []).
Definition md_t96 : ty := (Ty ["xcm"%string; "v3"%string; "PalletInfo"%string] [] (TComposite [(Field (Some "index"%string) 77%N (Some "u32"%string) []); (Field (Some "name"%string) 97%N (Some "BoundedVec<u8, MaxPalletNameLen>"%string) []); (Field (Some "module_name"%string) 97%N (Some "BoundedVec<u8, MaxPalletNameLen>"%string) []); (Field (Some "major"%string) 77%N (Some "u32"%string) []); (Field (Some "minor"%string) 77%N (Some "u32"%string) []); (Field (Some "patch"%string) 77%N (Some "u32"%string) [])]) []).
Definition md_t97 : ty := (Ty ["bounded_collections"%string; "bounded_vec"%string; "BoundedVec"%string] [("T"%string,(Some 2%N)); ("S"%string,None)] (TComposite [(Field None 13%N (Some "Vec<T>"%string) [])]) []).
Definition md_t98 : ty := (Ty [] [] (TSequence 96%N) []).
Definition md_t99 : ty := (Ty ["xcm"%string; "v3"%string; "MaybeErrorCode"%string] [] (TVariant [(Variant "Success"%string [] 0%N []); (Variant "Error"%string [(Field None 100%N (Some "BoundedVec<u8, MaxDispatchErrorLen>"%string) [])] 1%N []); (Variant "TruncatedError"%string [(Field None 100%N (Some "BoundedVec<u8, MaxDispatchErrorLen>"%string) [])] 2%N [])]) []).
Definition md_t100 : ty := (Ty ["bounded_collections"%string; "bounded_vec"%string; "BoundedVec"%string] [("T"%string,(Some 2%N)); ("S"%string,None)] (TComposite [(Field None 13%N (Some "Vec<T>"%string) [])]) []).
Definition md_t101 : ty := (Ty ["Option"%string] [("T"%string,(Some 74%N))] (TVariant [(Variant "None"%string [] 0%N []); (Variant "Some"%string [(Field None 74%N None [])] 1%N [])]) []).
Definition md_t102 : ty := (Ty ["xcm"%string; "v2"%string; "OriginKind"%string] [] (TVariant [(Variant "Native"%string [] 0%N []); (Variant "SovereignAccount"%string [] 1%N []); (Variant "Superuser"%string [] 2%N []); (Variant "Xcm"%string [] 3%N [])]) []).
Definition md_t103 : ty := (Ty ["xcm"%string; "double_encoded"%string; "DoubleEncoded"%string] [("T"%string,None)] (TComposite [(Field (Some "encoded"%string) 13%N (Some "Vec<u8>"%string) [])]) []).
Definition md_t104 : ty := (Ty ["xcm"%string; "v3"%string; "QueryResponseInfo"%string] [] (TComposite [(Field (Some "destination"%string) 74%N (Some "MultiLocation"%string) []); (Field (Some "query_id"%string) 10%N (Some "QueryId"%string) []); (Field (Some "max_weight"%string) 9%N (Some "Weight"%string) [])]) []).
Definition md_t105 : ty := (Ty ["xcm"%string; "v3"%string; "multiasset"%string; "MultiAssetFilter"%string] [] (TVariant [(Variant "Definite"%string [(Field None 85%N (Some "MultiAssets"%string) [])] 0%N []); (Variant "Wild"%string [(Field None 106%N (Some "WildMultiAsset"%string) [])] 1%N [])]) []).
Definition md_t106 : ty := (Ty ["xcm"%string; "v3"%string; "multiasset"%string; "WildMultiAsset"%string] [] (TVariant [(Variant "All"%string [] 0%N []); (Variant "AllOf"%string [(Field (Some "id"%string) 88%N (Some "AssetId"%string) []); (Field (Some "fun"%string) 107%N (Some "WildFungibility"%string) [])] 1%N []); (Variant "AllCounted"%string [(Field None 77%N (Some "u32"%string) [])] 2%N []); (Variant "AllOfCounted"%string [(Field (Some "id"%string) 88%N (Some "AssetId"%string) []); (Field (Some "fun"%string) 107%N (Some "WildFungibility"%string) []); (Field (Some "count"%string) 77%N (Some "u32"%string) [])] 3%N [])]) []).
Definition md_t107 : ty := (Ty ["xcm"%string; "v3"%string; "multiasset"%string; "WildFungibility"%string] [] (TVariant [(Variant "Fungible"%string [] 0%N []); (Variant "NonFungible"%string [] 1%N [])]) []).
Definition md_t108 : ty := (Ty [] [] (TPrimitive PrBool) []).
Definition md_t109 : ty := (Ty ["xcm"%string; "v3"%string; "WeightLimit"%string] [] (TVariant [(Variant "Unlimited"%string [] 0%N []); (Variant "Limited"%string [(Field None 9%N (Some "Weight"%string) [])] 1%N [])]) []).
Definition md_t110 : ty := (Ty ["xcm"%string; "VersionedMultiAssets"%string] [] (TVariant [(Variant "V2"%string [(Field None 111%N (Some "v2::MultiAssets"%string) [])] 1%N []); (Variant "V3"%string [(Field None 85%N (Some "v3::MultiAssets"%string) [])] 3%N [])]) []).
Definition md_t111 : ty := (Ty ["xcm"%string; "v2"%string; "multiasset"%string; "MultiAssets"%string] [] (TComposite [(Field None 112%N (Some "Vec<MultiAsset>"%string) [])]) []).
Definition md_t112 : ty := (Ty [] [] (TSequence 113%N) []).
Definition md_t113 : ty := (Ty ["xcm"%string; "v2"%string; "multiasset"%string; "MultiAsset"%string] [] (TComposite [(Field (Some "id"%string) 114%N (Some "AssetId"%string) []); (Field (Some "fun"%string) 122%N (Some "Fungibility"%string) [])]) []).
Definition md_t114 : ty := (Ty ["xcm"%string; "v2"%string; "multiasset"%string; "AssetId"%string] [] (TVariant [(Variant "Concrete"%string [(Field None 115%N (Some "MultiLocation"%string) [])] 0%N []); (Variant "Abstract"%string [(Field None 13%N (Some "Vec<u8>"%string) [])] 1%N [])]) []).
Definition md_t115 : ty := (Ty ["xcm"%string; "v2"%string; "multilocation"%string; "MultiLocation"%string] [] (TComposite [(Field (Some "parents"%string) 2%N (Some "u8"%string) []); (Field (Some "interior"%string) 116%N (Some "Junctions"%string) [])]) []).
Definition md_t116 : ty := (Ty ["xcm"%string; "v2"%string; "multilocation"%string; "Junctions"%string] [] (TVariant [(Variant "Here"%string [] 0%N []); (Variant "X1"%string [(Field None 117%N (Some "Junction"%string) [])] 1%N []); (Variant "X2"%string [(Field None 117%N (Some "Junction"%string) []); (Field None 117%N (Some "Junction"%string) [])] 2%N []); (Variant "X3"%string [(Field None 117%N (Some "Junction"%string) []); (Field None 117%N (Some "Junction"%string) []); (Field None 117%N (Some "Junction"%string) [])] 3%N []); (Variant "X4"%string [(Field None 117%N (Some "Junction"%string) []); (Field None 117%N (Some "Junction"%string) []); (Field None 117%N (Some "Junction"%string) []); (Field None 117%N (Some "Junction"%string) [])] 4%N []); (Variant "X5"%string [(Field None 117%N (Some "Junction"%string) []); (Field None 117%N (Some "Junction"%string) []); (Field None 117%N (Some "Junction"%string) []); (Field None 117%N (Some "Junction"%string) []); (Field None 117%N (Some "Junction"%string) [])] 5%N []); (Variant "X6"%string [(Field None 117%N (Some "Junction"%string) []); (Field None 117%N (Some "Junction"%string) []); (Field None 117%N (Some "Junction"%string) []); (Field None 117%N (Some "Junction"%string) []); (Field None 117%N (Some "Junction"%string) []); (Field None 117%N (Some "Junction"%string) [])] 6%N []); (Variant "X7"%string [(Field None 117%N (Some "Junction"%string) []); (Field None 117%N (Some "Junction"%string) []); (Field None 117%N (Some "Junction"%string) []); (Field None 117%N (Some "Junction"%string) []); (Field None 117%N (Some "Junction"%string) []); (Field None 117%N (Some "Junction"%string) []); (Field None 117%N (Some "Junction"%string) [])] 7%N []); (Variant "X8"%string [(Field None 117%N (Some "Junction"%string) []); (Field None 117%N (Some "Junction"%string) []); (Field None 117%N (Some "Junction"%string) []); (Field None 117%N (Some "Junction"%string) []); (Field None 117%N (Some "Junction"%string) []); (Field None 117%N (Some "Junction"%string) []); (Field None 117%N (Some "Junction"%string) []); (Field None 117%N (Some "Junction"%string) [])] 8%N [])]) []).
Definition md_t117 : ty := (Ty ["xcm"%string; "v2"%string; "junction"%string; "Junction"%string] [] (TVariant [(Variant "Parachain"%string [(Field None 77%N (Some "u32"%string) [])] 0%N []); (Variant "AccountId32"%string [(Field (Some "network"%string) 118%N (Some "NetworkId"%string) []); (Field (Some "id"%string) 1%N (Some "[u8; 32]"%string) [])] 1%N []); (Variant "AccountIndex64"%string [(Field (Some "network"%string) 118%N (Some "NetworkId"%string) []); (Field (Some "index"%string) 10%N (Some "u64"%string) [])] 2%N []); (Variant "AccountKey20"%string [(Field (Some "network"%string) 118%N (Some "NetworkId"%string) []); (Field (Some "key"%string) 43%N (Some "[u8; 20]"%string) [])] 3%N []); (Variant "PalletInstance"%string [(Field None 2%N (Some "u8"%string) [])] 4%N []); (Variant "GeneralIndex"%string [(Field None 59%N (Some "u128"%string) [])] 5%N []); (Variant "GeneralKey"%string [(Field None 119%N (Some "WeakBoundedVec<u8, ConstU32<32>>"%string) [])] 6%N []); (Variant "OnlyChild"%string [] 7%N []); (Variant "Plurality"%string [(Field (Some "id"%string) 120%N (Some "BodyId"%string) []); (Field (Some "part"%string) 121%N (Some "BodyPart"%string) [])] 8%N [])]) []).
Definition md_t118 : ty := (Ty ["xcm"%string; "v2"%string; "NetworkId"%string] [] (TVariant [(Variant "Any"%string [] 0%N []); (Variant "Named"%string [(Field None 119%N (Some "WeakBoundedVec<u8, ConstU32<32>>"%string) [])] 1%N []); (Variant "Polkadot"%string [] 2%N []); (Variant "Kusama"%string [] 3%N [])]) []).
Definition md_t119 : ty := (Ty ["bounded_collections"%string; "weak_bounded_vec"%string; "WeakBoundedVec"%string] [("T"%string,(Some 2%N)); ("S"%string,None)] (TComposite [(Field None 13%N (Some "Vec<T>"%string) [])]) []).
Definition md_t120 : ty := (Ty ["xcm"%string; "v2"%string; "BodyId"%string] [] (TVariant [(Variant "Unit"%string [] 0%N []); (Variant "Named"%string [(Field None 119%N (Some "WeakBoundedVec<u8, ConstU32<32>>"%string) [])] 1%N []); (Variant "Index"%string [(Field None 77%N (Some "u32"%string) [])] 2%N []); (Variant "Executive"%string [] 3%N []); (Variant "Technical"%string [] 4%N []); (Variant "Legislative"%string [] 5%N []); (Variant "Judicial"%string [] 6%N []); (Variant "Defense"%string [] 7%N []); (Variant "Administration"%string [] 8%N []); (Variant "Treasury"%string [] 9%N [])]) []).
Definition md_t121 : ty := (Ty ["xcm"%string; "v2"%string; "BodyPart"%string] [] (TVariant [(Variant "Voice"%string [] 0%N []); (Variant "Members"%string [(Field (Some "count"%string) 77%N (Some "u32"%string) [])] 1%N []); (Variant "Fraction"%string [(Field (Some "nom"%string) 77%N (Some "u32"%string) []); (Field (Some "denom"%string) 77%N (Some "u32"%string) [])] 2%N []); (Variant "AtLeastProportion"%string [(Field (Some "nom"%string) 77%N (Some "u32"%string) []); (Field (Some "denom"%string) 77%N (Some "u32"%string) [])] 3%N []); (Variant "MoreThanProportion"%string [(Field (Some "nom"%string) 77%N (Some "u32"%string) []); (Field (Some "denom"%string) 77%N (Some "u32"%string) [])] 4%N [])]) []).
Definition md_t122 : ty := (Ty ["xcm"%string; "v2"%string; "multiasset"%string; "Fungibility"%string] [] (TVariant [(Variant "Fungible"%string [(Field None 59%N (Some "u128"%string) [])] 0%N []); (Variant "NonFungible"%string [(Field None 123%N (Some "AssetInstance"%string) [])] 1%N [])]) []).
Definition md_t123 : ty := (Ty ["xcm"%string; "v2"%string; "multiasset"%string; "AssetInstance"%string] [] (TVariant [(Variant "Undefined"%string [] 0%N []); (Variant "Index"%string [(Field None 59%N (Some "u128"%string) [])] 1%N []); (Variant "Array4"%string [(Field None 17%N (Some "[u8; 4]"%string) [])] 2%N []); (Variant "Array8"%string [(Field None 55%N (Some "[u8; 8]"%string) [])] 3%N []); (Variant "Array16"%string [(Field None 91%N (Some "[u8; 16]"%string) [])] 4%N []); (Variant "Array32"%string [(Field None 1%N (Some "[u8; 32]"%string) [])] 5%N []); (Variant "Blob"%string [(Field None 13%N (Some "Vec<u8>"%string) [])] 6%N [])]) []).
Definition md_t124 : ty := (Ty ["xcm"%string; "VersionedMultiLocation"%string] [] (TVariant [(Variant "V2"%string [(Field None 115%N (Some "v2::MultiLocation"%string) [])] 1%N []); (Variant "V3"%string [(Field None 74%N (Some "v3::MultiLocation"%string) [])] 3%N [])]) []).
Definition md_t125 : ty := (Ty ["cumulus_pallet_xcm"%string; "pallet"%string; "Event"%string] [("T"%string,None)] (TVariant [(Variant "InvalidFormat"%string [(Field None 1%N (Some "[u8; 32]"%string) [])] 0%N []); (Variant "UnsupportedVersion"%string [(Field None 1%N (Some "[u8; 32]"%string) [])] 1%N []); (Variant "ExecutedDownward"%string [(Field None 1%N (Some "[u8; 32]"%string) []); (Field None 73%N (Some "Outcome"%string) [])] 2%N [])]) []).
Definition md_t126 : ty := (Ty ["cumulus_pallet_dmp_queue"%string; "pallet"%string; "Event"%string] [("T"%string,None)] (TVariant [(Variant "InvalidFormat"%string [(Field (Some "message_hash"%string) 1%N (Some "XcmHash"%string) [])] 0%N []); (Variant "UnsupportedVersion"%string [(Field (Some "message_hash"%string) 1%N (Some "XcmHash"%string) [])] 1%N []); (Variant "ExecutedDownward"%string [(Field (Some "message_hash"%string) 1%N (Some "XcmHash"%string) []); (Field (Some "message_id"%string) 1%N (Some "XcmHash"%string) []); (Field (Some "outcome"%string) 73%N (Some "Outcome"%string) [])] 2%N []); (Variant "WeightExhausted"%string [(Field (Some "message_hash"%string) 1%N (Some "XcmHash"%string) []); (Field (Some "message_id"%string) 1%N (Some "XcmHash"%string) []); (Field (Some "remaining_weight"%string) 9%N (Some "Weight"%string) []); (Field (Some "required_weight"%string) 9%N (Some "Weight"%string) [])] 3%N []); (Variant "OverweightEnqueued"%string [(Field (Some "message_hash"%string) 1%N (Some "XcmHash"%string) []); (Field (Some "message_id"%string) 1%N (Some "XcmHash"%string) []); (Field (Some "overweight_index"%string) 11%N (Some "OverweightIndex"%string) []); (Field (Some "required_weight"%string) 9%N (Some "Weight"%string) [])] 4%N []); (Variant "OverweightServiced"%string [(Field (Some "overweight_index"%string) 11%N (Some "OverweightIndex"%string) []); (Field (Some "weight_used"%string) 9%N (Some "Weight"%string) [])] 5%N []); (Variant "MaxMessagesExhausted"%string [(Field (Some "message_hash"%string) 1%N (Some "XcmHash"%string) [])] 6%N [])]) []).
Definition md_t127 : ty := (Ty ["orml_xtokens"%string; "module"%string; "Event"%string] [("T"%string,None)] (TVariant [(Variant "TransferredMultiAssets"%string [(Field (Some "sender"%string) 0%N (Some "T::AccountId"%string) []); (Field (Some "assets"%string) 85%N (Some "MultiAssets"%string) []); (Field (Some "fee"%string) 87%N (Some "MultiAsset"%string) []); (Field (Some "dest"%string) 74%N (Some "MultiLocation"%string) [])] 0%N [])]) []).
Definition md_t128 : ty := (Ty ["orml_unknown_tokens"%string; "module"%string; "Event"%string] [] (TVariant [(Variant "Deposited"%string [(Field (Some "asset"%string) 87%N (Some "MultiAsset"%string) []); (Field (Some "who"%string) 74%N (Some "MultiLocation"%string) [])] 0%N []); (Variant "Withdrawn"%string [(Field (Some "asset"%string) 87%N (Some "MultiAsset"%string) []); (Field (Some "who"%string) 74%N (Some "MultiLocation"%string) [])] 1%N [])]) []).
Definition md_t129 : ty := (Ty ["orml_xcm"%string; "module"%string; "Event"%string] [("T"%string,None)] (TVariant [(Variant "Sent"%string [(Field (Some "to"%string) 74%N (Some "MultiLocation"%string) []); (Field (Some "message"%string) 82%N (Some "Xcm<()>"%string) [])] 0%N [])]) []).
Definition md_t130 : ty := (Ty ["orml_authority"%string; "module"%string; "Event"%string] [("T"%string,None)] (TVariant [(Variant "Dispatched"%string [(Field (Some "result"%string) 33%N (Some "DispatchResult"%string) [])] 0%N []); (Variant "Scheduled"%string [(Field (Some "origin"%string) 131%N (Some "T::PalletsOrigin"%string) []); (Field (Some "index"%string) 4%N (Some "ScheduleTaskIndex"%string) [])] 1%N []); (Variant "FastTracked"%string [(Field (Some "origin"%string) 131%N (Some "T::PalletsOrigin"%string) []); (Field (Some "index"%string) 4%N (Some "ScheduleTaskIndex"%string) []); (Field (Some "when"%string) 4%N (Some "BlockNumberFor<T>"%string) [])] 2%N []); (Variant "Delayed"%string [(Field (Some "origin"%string) 131%N (Some "T::PalletsOrigin"%string) []); (Field (Some "index"%string) 4%N (Some "ScheduleTaskIndex"%string) []); (Field (Some "when"%string) 4%N (Some "BlockNumberFor<T>"%string) [])] 3%N []); (Variant "Cancelled"%string [(Field (Some "origin"%string) 131%N (Some "T::PalletsOrigin"%string) []); (Field (Some "index"%string) 4%N (Some "ScheduleTaskIndex"%string) [])] 4%N []); (Variant "AuthorizedCall"%string [(Field (Some "hash"%string) 12%N (Some "T::Hash"%string) []); (Field (Some "caller"%string) 141%N (Some "Option<T::AccountId>"%string) [])] 5%N []); (Variant "RemovedAuthorizedCall"%string [(Field (Some "hash"%string) 12%N (Some "T::Hash"%string) [])] 6%N []); (Variant "TriggeredCallBy"%string [(Field (Some "hash"%string) 12%N (Some "T::Hash"%string) []); (Field (Some "caller"%string) 0%N (Some "T::AccountId"%string) [])] 7%N [])]) []).
Definition md_t131 : ty := (Ty ["acala_runtime"%string; "OriginCaller"%string] [] (TVariant [(Variant "system"%string [(Field None 132%N (Some "frame_system::Origin<Runtime>"%string) [])] 0%N []); (Variant "PolkadotXcm"%string [(Field None 133%N (Some "pallet_xcm::Origin"%string) [])] 51%N []); (Variant "CumulusXcm"%string [(Field None 134%N (Some "cumulus_pallet_xcm::Origin"%string) [])] 52%N []); (Variant "Authority"%string [(Field None 135%N (Some "orml_authority::Origin<Runtime>"%string) [])] 60%N []); (Variant "GeneralCouncil"%string [(Field None 136%N (Some "pallet_collective::Origin<Runtime, pallet_collective::Instance1>"%string) [])] 61%N []); (Variant "FinancialCouncil"%string [(Field None 137%N (Some "pallet_collective::Origin<Runtime, pallet_collective::Instance2>"%string) [])] 63%N []); (Variant "HomaCouncil"%string [(Field None 138%N (Some "pallet_collective::Origin<Runtime, pallet_collective::Instance3>"%string) [])] 65%N []); (Variant "TechnicalCommittee"%string [(Field None 139%N (Some "pallet_collective::Origin<Runtime, pallet_collective::Instance4>"%string) [])] 67%N []); (Variant "Void"%string [(Field None 140%N (Some "self::sp_api_hidden_includes_construct_runtime::hidden_include::Void"%string) [])] 8%N [])]) []).
Definition md_t132 : ty := (Ty ["frame_support"%string; "dispatch"%string; "RawOrigin"%string] [("AccountId"%string,(Some 0%N))] (TVariant [(Variant "Root"%string [] 0%N []); (Variant "Signed"%string [(Field None 0%N (Some "AccountId"%string) [])] 1%N []); (Variant "None"%string [] 2%N [])]) []).
Definition md_t133 : ty := (Ty ["pallet_xcm"%string; "pallet"%string; "Origin"%string] [] (TVariant [(Variant "Xcm"%string [(Field None 74%N (Some "MultiLocation"%string) [])] 0%N []); (Variant "Response"%string [(Field None 74%N (Some "MultiLocation"%string) [])] 1%N [])]) []).
Definition md_t134 : ty := (Ty ["cumulus_pallet_xcm"%string; "pallet"%string; "Origin"%string] [] (TVariant [(Variant "Relay"%string [] 0%N []); (Variant "SiblingParachain"%string [(Field None 71%N (Some "ParaId"%string) [])] 1%N [])]) []).
Definition md_t135 : ty := (Ty ["orml_authority"%string; "DelayedOrigin"%string] [("BlockNumber"%string,(Some 4%N)); ("PalletsOrigin"%string,(Some 131%N))] (TComposite [(Field (Some "delay"%string) 4%N (Some "BlockNumber"%string) []); (Field (Some "origin"%string) 131%N (Some "Box<PalletsOrigin>"%string) [])]) []).
Definition md_t136 : ty := (Ty ["pallet_collective"%string; "RawOrigin"%string] [("AccountId"%string,(Some 0%N)); ("I"%string,None)] (TVariant [(Variant "Members"%string [(Field None 4%N (Some "MemberCount"%string) []); (Field None 4%N (Some "MemberCount"%string) [])] 0%N []); (Variant "Member"%string [(Field None 0%N (Some "AccountId"%string) [])] 1%N []); (Variant "_Phantom"%string [] 2%N [])]) []).
Definition md_t137 : ty := (Ty ["pallet_collective"%string; "RawOrigin"%string] [("AccountId"%string,(Some 0%N)); ("I"%string,None)] (TVariant [(Variant "Members"%string [(Field None 4%N (Some "MemberCount"%string) []); (Field None 4%N (Some "MemberCount"%string) [])] 0%N []); (Variant "Member"%string [(Field None 0%N (Some "AccountId"%string) [])] 1%N []); (Variant "_Phantom"%string [] 2%N [])]) []).
Definition md_t138 : ty := (Ty ["pallet_collective"%string; "RawOrigin"%string] [("AccountId"%string,(Some 0%N)); ("I"%string,None)] (TVariant [(Variant "Members"%string [(Field None 4%N (Some "MemberCount"%string) []); (Field None 4%N (Some "MemberCount"%string) [])] 0%N []); (Variant "Member"%string [(Field None 0%N (Some "AccountId"%string) [])] 1%N []); (Variant "_Phantom"%string [] 2%N [])]) []).
Definition md_t139 : ty := (Ty ["pallet_collective"%string; "RawOrigin"%string] [("AccountId"%string,(Some 0%N)); ("I"%string,None)] (TVariant [(Variant "Members"%string [(Field None 4%N (Some "MemberCount"%string) []); (Field None 4%N (Some "MemberCount"%string) [])] 0%N []); (Variant "Member"%string [(Field None 0%N (Some "AccountId"%string) [])] 1%N []); (Variant "_Phantom"%string [] 2%N [])]) []).
Definition md_t140 : ty := (Ty ["sp_core"%string; "Void"%string] [] (TVariant []) []).
Definition md_t141 : ty := (Ty ["Option"%string] [("T"%string,(Some 0%N))] (TVariant [(Variant "None"%string [] 0%N []); (Variant "Some"%string [(Field None 0%N None [])] 1%N [])]) []).
Definition md_t142 : ty := (Ty ["pallet_collective"%string; "pallet"%string; "Event"%string] [("T"%string,None); ("I"%string,None)] (TVariant [(Variant "Proposed"%string [(Field (Some "account"%string) 0%N (Some "T::AccountId"%string) []); (Field (Some "proposal_index"%string) 4%N (Some "ProposalIndex"%string) []); (Field (Some "proposal_hash"%string) 12%N (Some "T::Hash"%string) []); (Field (Some "threshold"%string) 4%N (Some "MemberCount"%string) [])] 0%N []); (Variant "Voted"%string [(Field (Some "account"%string) 0%N (Some "T::AccountId"%string) []); (Field (Some "proposal_hash"%string) 12%N (Some "T::Hash"%string) []); (Field (Some "voted"%string) 108%N (Some "bool"%string) []); (Field (Some "yes"%string) 4%N (Some "MemberCount"%string) []); (Field (Some "no"%string) 4%N (Some "MemberCount"%string) [])] 1%N []); (Variant "Approved"%string [(Field (Some "proposal_hash"%string) 12%N (Some "T::Hash"%string) [])] 2%N []); (Variant "Disapproved"%string [(Field (Some "proposal_hash"%string) 12%N (Some "T::Hash"%string) [])] 3%N []); (Variant "Executed"%string [(Field (Some "proposal_hash"%string) 12%N (Some "T::Hash"%string) []); (Field (Some "result"%string) 33%N (Some "DispatchResult"%string) [])] 4%N []); (Variant "MemberExecuted"%string [(Field (Some "proposal_hash"%string) 12%N (Some "T::Hash"%string) []); (Field (Some "result"%string) 33%N (Some "DispatchResult"%string) [])] 5%N []); (Variant "Closed"%string [(Field (Some "proposal_hash"%string) 12%N (Some "T::Hash"%string) []); (Field (Some "yes"%string) 4%N (Some "MemberCount"%string) []); (Field (Some "no"%string) 4%N (Some "MemberCount"%string) [])] 6%N [])]) []).
Definition md_t143 : ty := (Ty ["pallet_membership"%string; "pallet"%string; "Event"%string] [("T"%string,None); ("I"%string,None)] (TVariant [(Variant "MemberAdded"%string [] 0%N []); (Variant "MemberRemoved"%string [] 1%N []); (Variant "MembersSwapped"%string [] 2%N []); (Variant "MembersReset"%string [] 3%N []); (Variant "KeyChanged"%string [] 4%N []); (Variant "Dummy"%string [] 5%N [])]) []).
Definition md_t144 : ty := (Ty ["pallet_collective"%string; "pallet"%string; "Event"%string] [("T"%string,None); ("I"%string,None)] (TVariant [(Variant "Proposed"%string [(Field (Some "account"%string) 0%N (Some "T::AccountId"%string) []); (Field (Some "proposal_index"%string) 4%N (Some "ProposalIndex"%string) []); (Field (Some "proposal_hash"%string) 12%N (Some "T::Hash"%string) []); (Field (Some "threshold"%string) 4%N (Some "MemberCount"%string) [])] 0%N []); (Variant "Voted"%string [(Field (Some "account"%string) 0%N (Some "T::AccountId"%string) []); (Field (Some "proposal_hash"%string) 12%N (Some "T::Hash"%string) []); (Field (Some "voted"%string) 108%N (Some "bool"%string) []); (Field (Some "yes"%string) 4%N (Some "MemberCount"%string) []); (Field (Some "no"%string) 4%N (Some "MemberCount"%string) [])] 1%N []); (Variant "Approved"%string [(Field (Some "proposal_hash"%string) 12%N (Some "T::Hash"%string) [])] 2%N []); (Variant "Disapproved"%string [(Field (Some "proposal_hash"%string) 12%N (Some "T::Hash"%string) [])] 3%N []); (Variant "Executed"%string [(Field (Some "proposal_hash"%string) 12%N (Some "T::Hash"%string) []); (Field (Some "result"%string) 33%N (Some "DispatchResult"%string) [])] 4%N []); (Variant "MemberExecuted"%string [(Field (Some "proposal_hash"%string) 12%N (Some "T::Hash"%string) []); (Field (Some "result"%string) 33%N (Some "DispatchResult"%string) [])] 5%N []); (Variant "Closed"%string [(Field (Some "proposal_hash"%string) 12%N (Some "T::Hash"%string) []); (Field (Some "yes"%string) 4%N (Some "MemberCount"%string) []); (Field (Some "no"%string) 4%N (Some "MemberCount"%string) [])] 6%N [])]) []).
Definition md_t145 : ty := (Ty ["pallet_membership"%string; "pallet"%string; "Event"%string] [("T"%string,None); ("I"%string,None)] (TVariant [(Variant "MemberAdded"%string [] 0%N []); (Variant "MemberRemoved"%string [] 1%N []); (Variant "MembersSwapped"%string [] 2%N []); (Variant "MembersReset"%string [] 3%N []); (Variant "KeyChanged"%string [] 4%N []); (Variant "Dummy"%string [] 5%N [])]) []).
Definition md_t146 : ty := (Ty ["pallet_collective"%string; "pallet"%string; "Event"%string] [("T"%string,None); ("I"%string,None)] (TVariant [(Variant "Proposed"%string [(Field (Some "account"%string) 0%N (Some "T::AccountId"%string) []); (Field (Some "proposal_index"%string) 4%N (Some "ProposalIndex"%string) []); (Field (Some "proposal_hash"%string) 12%N (Some "T::Hash"%string) []); (Field (Some "threshold"%string) 4%N (Some "MemberCount"%string) [])] 0%N []); (Variant "Voted"%string [(Field (Some "account"%string) 0%N (Some "T::AccountId"%string) []); (Field (Some "proposal_hash"%string) 12%N (Some "T::Hash"%string) []); (Field (Some "voted"%string) 108%N (Some "bool"%string) []); (Field (Some "yes"%string) 4%N (Some "MemberCount"%string) []); (Field (Some "no"%string) 4%N (Some "MemberCount"%string) [])] 1%N []); (Variant "Approved"%string [(Field (Some "proposal_hash"%string) 12%N (Some "T::Hash"%string) [])] 2%N []); (Variant "Disapproved"%string [(Field (Some "proposal_hash"%string) 12%N (Some "T::Hash"%string) [])] 3%N []); (Variant "Executed"%string [(Field (Some "proposal_hash"%string) 12%N (Some "T::Hash"%string) []); (Field (Some "result"%string) 33%N (Some "DispatchResult"%string) [])] 4%N []); (Variant "MemberExecuted"%string [(Field (Some "proposal_hash"%string) 12%N (Some "T::Hash"%string) []); (Field (Some "result"%string) 33%N (Some "DispatchResult"%string) [])] 5%N []); (Variant "Closed"%string [(Field (Some "proposal_hash"%string) 12%N (Some "T::Hash"%string) []); (Field (Some "yes"%string) 4%N (Some "MemberCount"%string) []); (Field (Some "no"%string) 4%N (Some "MemberCount"%string) [])] 6%N [])]) []).
Definition md_t147 : ty := (Ty ["pallet_membership"%string; "pallet"%string; "Event"%string] [("T"%string,None); ("I"%string,None)] (TVariant [(Variant "MemberAdded"%string [] 0%N []); (Variant "MemberRemoved"%string [] 1%N []); (Variant "MembersSwapped"%string [] 2%N []); (Variant "MembersReset"%string [] 3%N []); (Variant "KeyChanged"%string [] 4%N []); (Variant "Dummy"%string [] 5%N [])]) []).
Definition md_t148 : ty := (Ty ["pallet_collective"%string; "pallet"%string; "Event"%string] [("T"%string,None); ("I"%string,None)] (TVariant [(Variant "Proposed"%string [(Field (Some "account"%string) 0%N (Some "T::AccountId"%string) []); (Field (Some "proposal_index"%string) 4%N (Some "ProposalIndex"%string) []); (Field (Some "proposal_hash"%string) 12%N (Some "T::Hash"%string) []); (Field (Some "threshold"%string) 4%N (Some "MemberCount"%string) [])] 0%N []); (Variant "Voted"%string [(Field (Some "account"%string) 0%N (Some "T::AccountId"%string) []); (Field (Some "proposal_hash"%string) 12%N (Some "T::Hash"%string) []); (Field (Some "voted"%string) 108%N (Some "bool"%string) []); (Field (Some "yes"%string) 4%N (Some "MemberCount"%string) []); (Field (Some "no"%string) 4%N (Some "MemberCount"%string) [])] 1%N []); (Variant "Approved"%string [(Field (Some "proposal_hash"%string) 12%N (Some "T::Hash"%string) [])] 2%N []); (Variant "Disapproved"%string [(Field (Some "proposal_hash"%string) 12%N (Some "T::Hash"%string) [])] 3%N []); (Variant "Executed"%string [(Field (Some "proposal_hash"%string) 12%N (Some "T::Hash"%string) []); (Field (Some "result"%string) 33%N (Some "DispatchResult"%string) [])] 4%N []); (Variant "MemberExecuted"%string [(Field (Some "proposal_hash"%string) 12%N (Some "T::Hash"%string) []); (Field (Some "result"%string) 33%N (Some "DispatchResult"%string) [])] 5%N []); (Variant "Closed"%string [(Field (Some "proposal_hash"%string) 12%N (Some "T::Hash"%string) []); (Field (Some "yes"%string) 4%N (Some "MemberCount"%string) []); (Field (Some "no"%string) 4%N (Some "MemberCount"%string) [])] 6%N [])]) []).
Definition md_t149 : ty := (Ty ["pallet_membership"%string; "pallet"%string; "Event"%string] [("T"%string,None); ("I"%string,None)] (TVariant [(Variant "MemberAdded"%string [] 0%N []); (Variant "MemberRemoved"%string [] 1%N []); (Variant "MembersSwapped"%string [] 2%N []); (Variant "MembersReset"%string [] 3%N []); (Variant "KeyChanged"%string [] 4%N []); (Variant "Dummy"%string [] 5%N [])]) []).
Definition md_t150 : ty := (Ty ["pallet_democracy"%string; "pallet"%string; "Event"%string] [("T"%string,None)] (TVariant [(Variant "Proposed"%string [(Field (Some "proposal_index"%string) 4%N (Some "PropIndex"%string) []); (Field (Some "deposit"%string) 6%N (Some "BalanceOf<T>"%string) [])] 0%N []); (Variant "Tabled"%string [(Field (Some "proposal_index"%string) 4%N (Some "PropIndex"%string) []); (Field (Some "deposit"%string) 6%N (Some "BalanceOf<T>"%string) [])] 1%N []); (Variant "ExternalTabled"%string [] 2%N []); (Variant "Started"%string [(Field (Some "ref_index"%string) 4%N (Some "ReferendumIndex"%string) []); (Field (Some "threshold"%string) 151%N (Some "VoteThreshold"%string) [])] 3%N []); (Variant "Passed"%string [(Field (Some "ref_index"%string) 4%N (Some "ReferendumIndex"%string) [])] 4%N []); (Variant "NotPassed"%string [(Field (Some "ref_index"%string) 4%N (Some "ReferendumIndex"%string) [])] 5%N []); (Variant "Cancelled"%string [(Field (Some "ref_index"%string) 4%N (Some "ReferendumIndex"%string) [])] 6%N []); (Variant "Delegated"%string [(Field (Some "who"%string) 0%N (Some "T::AccountId"%string) []); (Field (Some "target"%string) 0%N (Some "T::AccountId"%string) [])] 7%N []); (Variant "Undelegated"%string [(Field (Some "account"%string) 0%N (Some "T::AccountId"%string) [])] 8%N []); (Variant "Vetoed"%string [(Field (Some "who"%string) 0%N (Some "T::AccountId"%string) []); (Field (Some "proposal_hash"%string) 12%N (Some "H256"%string) []); (Field (Some "until"%string) 4%N (Some "BlockNumberFor<T>"%string) [])] 9%N []); (Variant "Blacklisted"%string [(Field (Some "proposal_hash"%string) 12%N (Some "H256"%string) [])] 10%N []); (Variant "Voted"%string [(Field (Some "voter"%string) 0%N (Some "T::AccountId"%string) []); (Field (Some "ref_index"%string) 4%N (Some "ReferendumIndex"%string) []); (Field (Some "vote"%string) 152%N (Some "AccountVote<BalanceOf<T>>"%string) [])] 11%N []); (Variant "Seconded"%string [(Field (Some "seconder"%string) 0%N (Some "T::AccountId"%string) []); (Field (Some "prop_index"%string) 4%N (Some "PropIndex"%string) [])] 12%N []); (Variant "ProposalCanceled"%string [(Field (Some "prop_index"%string) 4%N (Some "PropIndex"%string) [])] 13%N []); (Variant "MetadataSet"%string [(Field (Some "owner"%string) 154%N (Some "MetadataOwner"%string) []); (Field (Some "hash"%string) 12%N (Some "PreimageHash"%string) [])] 14%N []); (Variant "MetadataCleared"%string [(Field (Some "owner"%string) 154%N (Some "MetadataOwner"%string) []); (Field (Some "hash"%string) 12%N (Some "PreimageHash"%string) [])] 15%N []); (Variant "MetadataTransferred"%string [(Field (Some "prev_owner"%string) 154%N (Some "MetadataOwner"%string) []); (Field (Some "owner"%string) 154%N (Some "MetadataOwner"%string) []); (Field (Some "hash"%string) 12%N (Some "PreimageHash"%string) [])] 16%N [])]) []).
Definition md_t151 : ty := (Ty ["pallet_democracy"%string; "vote_threshold"%string; "VoteThreshold"%string] [] (TVariant [(Variant "SuperMajorityApprove"%string [] 0%N []); (Variant "SuperMajorityAgainst"%string [] 1%N []); (Variant "SimpleMajority"%string [] 2%N [])]) []).
Definition md_t152 : ty := (Ty ["pallet_democracy"%string; "vote"%string; "AccountVote"%string] [("Balance"%string,(Some 6%N))] (TVariant [(Variant "Standard"%string [(Field (Some "vote"%string) 153%N (Some "Vote"%string) []); (Field (Some "balance"%string) 6%N (Some "Balance"%string) [])] 0%N []); (Variant "Split"%string [(Field (Some "aye"%string) 6%N (Some "Balance"%string) []); (Field (Some "nay"%string) 6%N (Some "Balance"%string) [])] 1%N [])]) []).
Definition md_t153 : ty := (Ty ["pallet_democracy"%string; "vote"%string; "Vote"%string] [] (TComposite [(Field None 2%N None [])]) []).
Definition md_t154 : ty := (Ty ["pallet_democracy"%string; "types"%string; "MetadataOwner"%string] [] (TVariant [(Variant "External"%string [] 0%N []); (Variant "Proposal"%string [(Field None 4%N (Some "PropIndex"%string) [])] 1%N []); (Variant "Referendum"%string [(Field None 4%N (Some "ReferendumIndex"%string) [])] 2%N [])]) []).
Definition md_t155 : ty := (Ty ["orml_oracle"%string; "module"%string; "Event"%string] [("T"%string,None); ("I"%string,None)] (TVariant [(Variant "NewFeedData"%string [(Field (Some "sender"%string) 0%N (Some "T::AccountId"%string) []); (Field (Some "values"%string) 156%N (Some "Vec<(T::OracleKey, T::OracleValue)>"%string) [])] 0%N [])]) []).
Definition md_t156 : ty := (Ty [] [] (TSequence 157%N) []).
Definition md_t157 : ty := (Ty [] [] (TTuple [52%N; 61%N]) []).
Definition md_t158 : ty := (Ty ["pallet_membership"%string; "pallet"%string; "Event"%string] [("T"%string,None); ("I"%string,None)] (TVariant [(Variant "MemberAdded"%string [] 0%N []); (Variant "MemberRemoved"%string [] 1%N []); (Variant "MembersSwapped"%string [] 2%N []); (Variant "MembersReset"%string [] 3%N []); (Variant "KeyChanged"%string [] 4%N []); (Variant "Dummy"%string [] 5%N [])]) []).
Definition md_t159 : ty := (Ty ["orml_auction"%string; "module"%string; "Event"%string] [("T"%string,None)] (TVariant [(Variant "Bid"%string [(Field (Some "auction_id"%string) 4%N (Some "T::AuctionId"%string) []); (Field (Some "bidder"%string) 0%N (Some "T::AccountId"%string) []); (Field (Some "amount"%string) 6%N (Some "T::Balance"%string) [])] 0%N [])]) []).
Definition md_t160 : ty := (Ty ["module_prices"%string; "module"%string; "Event"%string] [("T"%string,None)] (TVariant [(Variant "LockPrice"%string [(Field (Some "currency_id"%string) 52%N (Some "CurrencyId"%string) []); (Field (Some "locked_price"%string) 61%N (Some "Price"%string) [])] 0%N []); (Variant "UnlockPrice"%string [(Field (Some "currency_id"%string) 52%N (Some "CurrencyId"%string) [])] 1%N [])]) []).
Definition md_t161 : ty := (Ty ["module_dex"%string; "module"%string; "Event"%string] [("T"%string,None)] (TVariant [(Variant "AddProvision"%string [(Field (Some "who"%string) 0%N (Some "T::AccountId"%string) []); (Field (Some "currency_0"%string) 52%N (Some "CurrencyId"%string) []); (Field (Some "contribution_0"%string) 6%N (Some "Balance"%string) []); (Field (Some "currency_1"%string) 52%N (Some "CurrencyId"%string) []); (Field (Some "contribution_1"%string) 6%N (Some "Balance"%string) [])] 0%N []); (Variant "AddLiquidity"%string [(Field (Some "who"%string) 0%N (Some "T::AccountId"%string) []); (Field (Some "currency_0"%string) 52%N (Some "CurrencyId"%string) []); (Field (Some "pool_0"%string) 6%N (Some "Balance"%string) []); (Field (Some "currency_1"%string) 52%N (Some "CurrencyId"%string) []); (Field (Some "pool_1"%string) 6%N (Some "Balance"%string) []); (Field (Some "share_increment"%string) 6%N (Some "Balance"%string) [])] 1%N []); (Variant "RemoveLiquidity"%string [(Field (Some "who"%string) 0%N (Some "T::AccountId"%string) []); (Field (Some "currency_0"%string) 52%N (Some "CurrencyId"%string) []); (Field (Some "pool_0"%string) 6%N (Some "Balance"%string) []); (Field (Some "currency_1"%string) 52%N (Some "CurrencyId"%string) []); (Field (Some "pool_1"%string) 6%N (Some "Balance"%string) []); (Field (Some "share_decrement"%string) 6%N (Some "Balance"%string) [])] 2%N []); (Variant "Swap"%string [(Field (Some "trader"%string) 0%N (Some "T::AccountId"%string) []); (Field (Some "path"%string) 162%N (Some "Vec<CurrencyId>"%string) []); (Field (Some "liquidity_changes"%string) 163%N (Some "Vec<Balance>"%string) [])] 3%N []); (Variant "EnableTradingPair"%string [(Field (Some "trading_pair"%string) 164%N (Some "TradingPair"%string) [])] 4%N []); (Variant "ListProvisioning"%string [(Field (Some "trading_pair"%string) 164%N (Some "TradingPair"%string) [])] 5%N []); (Variant "DisableTradingPair"%string [(Field (Some "trading_pair"%string) 164%N (Some "TradingPair"%string) [])] 6%N []); (Variant "ProvisioningToEnabled"%string [(Field (Some "trading_pair"%string) 164%N (Some "TradingPair"%string) []); (Field (Some "pool_0"%string) 6%N (Some "Balance"%string) []); (Field (Some "pool_1"%string) 6%N (Some "Balance"%string) []); (Field (Some "share_amount"%string) 6%N (Some "Balance"%string) [])] 7%N []); (Variant "RefundProvision"%string [(Field (Some "who"%string) 0%N (Some "T::AccountId"%string) []); (Field (Some "currency_0"%string) 52%N (Some "CurrencyId"%string) []); (Field (Some "contribution_0"%string) 6%N (Some "Balance"%string) []); (Field (Some "currency_1"%string) 52%N (Some "CurrencyId"%string) []); (Field (Some "contribution_1"%string) 6%N (Some "Balance"%string) [])] 8%N []); (Variant "ProvisioningAborted"%string [(Field (Some "trading_pair"%string) 164%N (Some "TradingPair"%string) []); (Field (Some "accumulated_provision_0"%string) 6%N (Some "Balance"%string) []); (Field (Some "accumulated_provision_1"%string) 6%N (Some "Balance"%string) [])] 9%N [])]) []).
Definition md_t162 : ty := (Ty [] [] (TSequence 52%N) []).
Definition md_t163 : ty := (Ty [] [] (TSequence 6%N) []).
Definition md_t164 : ty := (Ty ["acala_primitives"%string; "TradingPair"%string] [] (TComposite [(Field None 52%N (Some "CurrencyId"%string) []); (Field None 52%N (Some "CurrencyId"%string) [])]) []).
Definition md_t165 : ty := (Ty ["module_earning"%string; "module"%string; "Event"%string] [("T"%string,None)] (TVariant [(Variant "Bonded"%string [(Field (Some "who"%string) 0%N (Some "T::AccountId"%string) []); (Field (Some "amount"%string) 6%N (Some "Balance"%string) [])] 0%N []); (Variant "Unbonded"%string [(Field (Some "who"%string) 0%N (Some "T::AccountId"%string) []); (Field (Some "amount"%string) 6%N (Some "Balance"%string) [])] 1%N []); (Variant "InstantUnbonded"%string [(Field (Some "who"%string) 0%N (Some "T::AccountId"%string) []); (Field (Some "amount"%string) 6%N (Some "Balance"%string) []); (Field (Some "fee"%string) 6%N (Some "Balance"%string) [])] 2%N []); (Variant "Rebonded"%string [(Field (Some "who"%string) 0%N (Some "T::AccountId"%string) []); (Field (Some "amount"%string) 6%N (Some "Balance"%string) [])] 3%N []); (Variant "Withdrawn"%string [(Field (Some "who"%string) 0%N (Some "T::AccountId"%string) []); (Field (Some "amount"%string) 6%N (Some "Balance"%string) [])] 4%N [])]) []).
Definition md_t166 : ty := (Ty ["module_auction_manager"%string; "module"%string; "Event"%string] [("T"%string,None)] (TVariant [(Variant "NewCollateralAuction"%string [(Field (Some "auction_id"%string) 4%N (Some "AuctionId"%string) []); (Field (Some "collateral_type"%string) 52%N (Some "CurrencyId"%string) []); (Field (Some "collateral_amount"%string) 6%N (Some "Balance"%string) []); (Field (Some "target_bid_price"%string) 6%N (Some "Balance"%string) [])] 0%N []); (Variant "CancelAuction"%string [(Field (Some "auction_id"%string) 4%N (Some "AuctionId"%string) [])] 1%N []); (Variant "CollateralAuctionDealt"%string [(Field (Some "auction_id"%string) 4%N (Some "AuctionId"%string) []); (Field (Some "collateral_type"%string) 52%N (Some "CurrencyId"%string) []); (Field (Some "collateral_amount"%string) 6%N (Some "Balance"%string) []); (Field (Some "winner"%string) 0%N (Some "T::AccountId"%string) []); (Field (Some "payment_amount"%string) 6%N (Some "Balance"%string) [])] 2%N []); (Variant "DEXTakeCollateralAuction"%string [(Field (Some "auction_id"%string) 4%N (Some "AuctionId"%string) []); (Field (Some "collateral_type"%string) 52%N (Some "CurrencyId"%string) []); (Field (Some "collateral_amount"%string) 6%N (Some "Balance"%string) []); (Field (Some "supply_collateral_amount"%string) 6%N (Some "Balance"%string) []); (Field (Some "target_stable_amount"%string) 6%N (Some "Balance"%string) [])] 3%N []); (Variant "CollateralAuctionAborted"%string [(Field (Some "auction_id"%string) 4%N (Some "AuctionId"%string) []); (Field (Some "collateral_type"%string) 52%N (Some "CurrencyId"%string) []); (Field (Some "collateral_amount"%string) 6%N (Some "Balance"%string) []); (Field (Some "target_stable_amount"%string) 6%N (Some "Balance"%string) []); (Field (Some "refund_recipient"%string) 0%N (Some "T::AccountId"%string) [])] 4%N [])]) []).
Definition md_t167 : ty := (Ty ["module_loans"%string; "module"%string; "Event"%string] [("T"%string,None)] (TVariant [(Variant "PositionUpdated"%string [(Field (Some "owner"%string) 0%N (Some "T::AccountId"%string) []); (Field (Some "collateral_type"%string) 52%N (Some "CurrencyId"%string) []); (Field (Some "collateral_adjustment"%string) 168%N (Some "Amount"%string) []); (Field (Some "debit_adjustment"%string) 168%N (Some "Amount"%string) [])] 0%N []); (Variant "ConfiscateCollateralAndDebit"%string [(Field (Some "owner"%string) 0%N (Some "T::AccountId"%string) []); (Field (Some "collateral_type"%string) 52%N (Some "CurrencyId"%string) []); (Field (Some "confiscated_collateral_amount"%string) 6%N (Some "Balance"%string) []); (Field (Some "deduct_debit_amount"%string) 6%N (Some "Balance"%string) [])] 1%N []); (Variant "TransferLoan"%string [(Field (Some "from"%string) 0%N (Some "T::AccountId"%string) []); (Field (Some "to"%string) 0%N (Some "T::AccountId"%string) []); (Field (Some "currency_id"%string) 52%N (Some "CurrencyId"%string) [])] 2%N [])]) []).
Definition md_t168 : ty := (Ty [] [] (TPrimitive (PrI U128)) []).
Definition md_t169 : ty := (Ty ["module_honzon"%string; "module"%string; "Event"%string] [("T"%string,None)] (TVariant [(Variant "Authorization"%string [(Field (Some "authorizer"%string) 0%N (Some "T::AccountId"%string) []); (Field (Some "authorizee"%string) 0%N (Some "T::AccountId"%string) []); (Field (Some "collateral_type"%string) 52%N (Some "CurrencyId"%string) [])] 0%N []); (Variant "UnAuthorization"%string [(Field (Some "authorizer"%string) 0%N (Some "T::AccountId"%string) []); (Field (Some "authorizee"%string) 0%N (Some "T::AccountId"%string) []); (Field (Some "collateral_type"%string) 52%N (Some "CurrencyId"%string) [])] 1%N []); (Variant "UnAuthorizationAll"%string [(Field (Some "authorizer"%string) 0%N (Some "T::AccountId"%string) [])] 2%N []); (Variant "TransferDebit"%string [(Field (Some "from_currency"%string) 52%N (Some "CurrencyId"%string) []); (Field (Some "to_currency"%string) 52%N (Some "CurrencyId"%string) []); (Field (Some "amount"%string) 6%N (Some "Balance"%string) [])] 3%N [])]) []).
Definition md_t170 : ty := (Ty ["module_cdp_treasury"%string; "module"%string; "Event"%string] [("T"%string,None)] (TVariant [(Variant "ExpectedCollateralAuctionSizeUpdated"%string [(Field (Some "collateral_type"%string) 52%N (Some "CurrencyId"%string) []); (Field (Some "new_size"%string) 6%N (Some "Balance"%string) [])] 0%N []); (Variant "DebitOffsetBufferUpdated"%string [(Field (Some "amount"%string) 6%N (Some "Balance"%string) [])] 1%N [])]) []).
Definition md_t171 : ty := (Ty ["module_cdp_engine"%string; "module"%string; "Event"%string] [("T"%string,None)] (TVariant [(Variant "LiquidateUnsafeCDP"%string [(Field (Some "collateral_type"%string) 52%N (Some "CurrencyId"%string) []); (Field (Some "owner"%string) 0%N (Some "T::AccountId"%string) []); (Field (Some "collateral_amount"%string) 6%N (Some "Balance"%string) []); (Field (Some "bad_debt_value"%string) 6%N (Some "Balance"%string) []); (Field (Some "target_amount"%string) 6%N (Some "Balance"%string) [])] 0%N []); (Variant "SettleCDPInDebit"%string [(Field (Some "collateral_type"%string) 52%N (Some "CurrencyId"%string) []); (Field (Some "owner"%string) 0%N (Some "T::AccountId"%string) [])] 1%N []); (Variant "CloseCDPInDebitByDEX"%string [(Field (Some "collateral_type"%string) 52%N (Some "CurrencyId"%string) []); (Field (Some "owner"%string) 0%N (Some "T::AccountId"%string) []); (Field (Some "sold_collateral_amount"%string) 6%N (Some "Balance"%string) []); (Field (Some "refund_collateral_amount"%string) 6%N (Some "Balance"%string) []); (Field (Some "debit_value"%string) 6%N (Some "Balance"%string) [])] 2%N []); (Variant "InterestRatePerSecUpdated"%string [(Field (Some "collateral_type"%string) 52%N (Some "CurrencyId"%string) []); (Field (Some "new_interest_rate_per_sec"%string) 172%N (Some "Option<Rate>"%string) [])] 3%N []); (Variant "LiquidationRatioUpdated"%string [(Field (Some "collateral_type"%string) 52%N (Some "CurrencyId"%string) []); (Field (Some "new_liquidation_ratio"%string) 172%N (Some "Option<Ratio>"%string) [])] 4%N []); (Variant "LiquidationPenaltyUpdated"%string [(Field (Some "collateral_type"%string) 52%N (Some "CurrencyId"%string) []); (Field (Some "new_liquidation_penalty"%string) 172%N (Some "Option<Rate>"%string) [])] 5%N []); (Variant "RequiredCollateralRatioUpdated"%string [(Field (Some "collateral_type"%string) 52%N (Some "CurrencyId"%string) []); (Field (Some "new_required_collateral_ratio"%string) 172%N (Some "Option<Ratio>"%string) [])] 6%N []); (Variant "MaximumTotalDebitValueUpdated"%string [(Field (Some "collateral_type"%string) 52%N (Some "CurrencyId"%string) []); (Field (Some "new_total_debit_value"%string) 6%N (Some "Balance"%string) [])] 7%N []); (Variant "LiquidationContractRegistered"%string [(Field (Some "address"%string) 42%N (Some "EvmAddress"%string) [])] 8%N []); (Variant "LiquidationContractDeregistered"%string [(Field (Some "address"%string) 42%N (Some "EvmAddress"%string) [])] 9%N [])]) []).
Definition md_t172 : ty := (Ty ["Option"%string] [("T"%string,(Some 61%N))] (TVariant [(Variant "None"%string [] 0%N []); (Variant "Some"%string [(Field None 61%N None [])] 1%N [])]) []).
Definition md_t173 : ty := (Ty ["module_emergency_shutdown"%string; "module"%string; "Event"%string] [("T"%string,None)] (TVariant [(Variant "Shutdown"%string [(Field (Some "block_number"%string) 4%N (Some "BlockNumberFor<T>"%string) [])] 0%N []); (Variant "OpenRefund"%string [(Field (Some "block_number"%string) 4%N (Some "BlockNumberFor<T>"%string) [])] 1%N []); (Variant "Refund"%string [(Field (Some "who"%string) 0%N (Some "T::AccountId"%string) []); (Field (Some "stable_coin_amount"%string) 6%N (Some "Balance"%string) []); (Field (Some "refund_list"%string) 174%N (Some "Vec<(CurrencyId, Balance)>"%string) [])] 2%N [])]) []).
Definition md_t174 : ty := (Ty [] [] (TSequence 175%N) []).
Definition md_t175 : ty := (Ty [] [] (TTuple [52%N; 6%N]) []).
Definition md_t176 : ty := (Ty ["module_homa"%string; "module"%string; "Event"%string] [("T"%string,None)] (TVariant [(Variant "Minted"%string [(Field (Some "minter"%string) 0%N (Some "T::AccountId"%string) []); (Field (Some "staking_currency_amount"%string) 6%N (Some "Balance"%string) []); (Field (Some "liquid_amount_received"%string) 6%N (Some "Balance"%string) []); (Field (Some "liquid_amount_added_to_void"%string) 6%N (Some "Balance"%string) [])] 0%N []); (Variant "RequestedRedeem"%string [(Field (Some "redeemer"%string) 0%N (Some "T::AccountId"%string) []); (Field (Some "liquid_amount"%string) 6%N (Some "Balance"%string) []); (Field (Some "allow_fast_match"%string) 108%N (Some "bool"%string) [])] 1%N []); (Variant "RedeemRequestCancelled"%string [(Field (Some "redeemer"%string) 0%N (Some "T::AccountId"%string) []); (Field (Some "cancelled_liquid_amount"%string) 6%N (Some "Balance"%string) [])] 2%N []); (Variant "RedeemedByFastMatch"%string [(Field (Some "redeemer"%string) 0%N (Some "T::AccountId"%string) []); (Field (Some "matched_liquid_amount"%string) 6%N (Some "Balance"%string) []); (Field (Some "fee_in_liquid"%string) 6%N (Some "Balance"%string) []); (Field (Some "redeemed_staking_amount"%string) 6%N (Some "Balance"%string) [])] 3%N []); (Variant "RedeemedByUnbond"%string [(Field (Some "redeemer"%string) 0%N (Some "T::AccountId"%string) []); (Field (Some "era_index_when_unbond"%string) 4%N (Some "EraIndex"%string) []); (Field (Some "liquid_amount"%string) 6%N (Some "Balance"%string) []); (Field (Some "unbonding_staking_amount"%string) 6%N (Some "Balance"%string) [])] 4%N []); (Variant "WithdrawRedemption"%string [(Field (Some "redeemer"%string) 0%N (Some "T::AccountId"%string) []); (Field (Some "redemption_amount"%string) 6%N (Some "Balance"%string) [])] 5%N []); (Variant "CurrentEraBumped"%string [(Field (Some "new_era_index"%string) 4%N (Some "EraIndex"%string) [])] 6%N []); (Variant "CurrentEraReset"%string [(Field (Some "new_era_index"%string) 4%N (Some "EraIndex"%string) [])] 7%N []); (Variant "LedgerBondedReset"%string [(Field (Some "sub_account_index"%string) 40%N (Some "u16"%string) []); (Field (Some "new_bonded_amount"%string) 6%N (Some "Balance"%string) [])] 8%N []); (Variant "LedgerUnlockingReset"%string [(Field (Some "sub_account_index"%string) 40%N (Some "u16"%string) []); (Field (Some "new_unlocking"%string) 177%N (Some "Vec<UnlockChunk>"%string) [])] 9%N []); (Variant "SoftBondedCapPerSubAccountUpdated"%string [(Field (Some "cap_amount"%string) 6%N (Some "Balance"%string) [])] 10%N []); (Variant "EstimatedRewardRatePerEraUpdated"%string [(Field (Some "reward_rate"%string) 61%N (Some "Rate"%string) [])] 11%N []); (Variant "CommissionRateUpdated"%string [(Field (Some "commission_rate"%string) 61%N (Some "Rate"%string) [])] 12%N []); (Variant "FastMatchFeeRateUpdated"%string [(Field (Some "fast_match_fee_rate"%string) 61%N (Some "Rate"%string) [])] 13%N []); (Variant "LastEraBumpedBlockUpdated"%string [(Field (Some "last_era_bumped_block"%string) 4%N (Some "BlockNumberFor<T>"%string) [])] 14%N []); (Variant "BumpEraFrequencyUpdated"%string [(Field (Some "frequency"%string) 4%N (Some "BlockNumberFor<T>"%string) [])] 15%N [])]) []).
Definition md_t177 : ty := (Ty [] [] (TSequence 178%N) []).
Definition md_t178 : ty := (Ty ["module_homa"%string; "module"%string; "UnlockChunk"%string] [] (TComposite [(Field (Some "value"%string) 59%N (Some "Balance"%string) []); (Field (Some "era"%string) 77%N (Some "EraIndex"%string) [])]) []).
Definition md_t179 : ty := (Ty ["module_xcm_interface"%string; "module"%string; "Event"%string] [("T"%string,None)] (TVariant [(Variant "XcmDestWeightUpdated"%string [(Field (Some "xcm_operation"%string) 180%N (Some "XcmInterfaceOperation"%string) []); (Field (Some "new_xcm_dest_weight"%string) 9%N (Some "XcmWeight"%string) [])] 0%N []); (Variant "XcmFeeUpdated"%string [(Field (Some "xcm_operation"%string) 180%N (Some "XcmInterfaceOperation"%string) []); (Field (Some "new_xcm_dest_weight"%string) 6%N (Some "Balance"%string) [])] 1%N [])]) []).
Definition md_t180 : ty := (Ty ["module_xcm_interface"%string; "module"%string; "XcmInterfaceOperation"%string] [] (TVariant [(Variant "XtokensTransfer"%string [] 0%N []); (Variant "HomaWithdrawUnbonded"%string [] 1%N []); (Variant "HomaBondExtra"%string [] 2%N []); (Variant "HomaUnbond"%string [] 3%N []); (Variant "ParachainFee"%string [(Field None 74%N (Some "Box<MultiLocation>"%string) [])] 4%N []); (Variant "ProxyReserveTransferAssets"%string [] 5%N [])]) []).
Definition md_t181 : ty := (Ty ["module_incentives"%string; "module"%string; "Event"%string] [("T"%string,None)] (TVariant [(Variant "DepositDexShare"%string [(Field (Some "who"%string) 0%N (Some "T::AccountId"%string) []); (Field (Some "dex_share_type"%string) 52%N (Some "CurrencyId"%string) []); (Field (Some "deposit"%string) 6%N (Some "Balance"%string) [])] 0%N []); (Variant "WithdrawDexShare"%string [(Field (Some "who"%string) 0%N (Some "T::AccountId"%string) []); (Field (Some "dex_share_type"%string) 52%N (Some "CurrencyId"%string) []); (Field (Some "withdraw"%string) 6%N (Some "Balance"%string) [])] 1%N []); (Variant "ClaimRewards"%string [(Field (Some "who"%string) 0%N (Some "T::AccountId"%string) []); (Field (Some "pool"%string) 182%N (Some "PoolId"%string) []); (Field (Some "reward_currency_id"%string) 52%N (Some "CurrencyId"%string) []); (Field (Some "actual_amount"%string) 6%N (Some "Balance"%string) []); (Field (Some "deduction_amount"%string) 6%N (Some "Balance"%string) [])] 2%N []); (Variant "IncentiveRewardAmountUpdated"%string [(Field (Some "pool"%string) 182%N (Some "PoolId"%string) []); (Field (Some "reward_currency_id"%string) 52%N (Some "CurrencyId"%string) []); (Field (Some "reward_amount_per_period"%string) 6%N (Some "Balance"%string) [])] 3%N []); (Variant "ClaimRewardDeductionRateUpdated"%string [(Field (Some "pool"%string) 182%N (Some "PoolId"%string) []); (Field (Some "deduction_rate"%string) 61%N (Some "Rate"%string) [])] 4%N [])]) []).
Definition md_t182 : ty := (Ty ["module_support"%string; "incentives"%string; "PoolId"%string] [] (TVariant [(Variant "Loans"%string [(Field None 52%N (Some "CurrencyId"%string) [])] 0%N []); (Variant "Dex"%string [(Field None 52%N (Some "CurrencyId"%string) [])] 1%N []); (Variant "Earning"%string [(Field None 52%N (Some "CurrencyId"%string) [])] 2%N [])]) []).
Definition md_t183 : ty := (Ty ["module_nft"%string; "module"%string; "Event"%string] [("T"%string,None)] (TVariant [(Variant "CreatedClass"%string [(Field (Some "owner"%string) 0%N (Some "T::AccountId"%string) []); (Field (Some "class_id"%string) 4%N (Some "ClassIdOf<T>"%string) [])] 0%N []); (Variant "MintedToken"%string [(Field (Some "from"%string) 0%N (Some "T::AccountId"%string) []); (Field (Some "to"%string) 0%N (Some "T::AccountId"%string) []); (Field (Some "class_id"%string) 4%N (Some "ClassIdOf<T>"%string) []); (Field (Some "quantity"%string) 4%N (Some "u32"%string) [])] 1%N []); (Variant "TransferredToken"%string [(Field (Some "from"%string) 0%N (Some "T::AccountId"%string) []); (Field (Some "to"%string) 0%N (Some "T::AccountId"%string) []); (Field (Some "class_id"%string) 4%N (Some "ClassIdOf<T>"%string) []); (Field (Some "token_id"%string) 11%N (Some "TokenIdOf<T>"%string) [])] 2%N []); (Variant "BurnedToken"%string [(Field (Some "owner"%string) 0%N (Some "T::AccountId"%string) []); (Field (Some "class_id"%string) 4%N (Some "ClassIdOf<T>"%string) []); (Field (Some "token_id"%string) 11%N (Some "TokenIdOf<T>"%string) [])] 3%N []); (Variant "BurnedTokenWithRemark"%string [(Field (Some "owner"%string) 0%N (Some "T::AccountId"%string) []); (Field (Some "class_id"%string) 4%N (Some "ClassIdOf<T>"%string) []); (Field (Some "token_id"%string) 11%N (Some "TokenIdOf<T>"%string) []); (Field (Some "remark_hash"%string) 12%N (Some "T::Hash"%string) [])] 4%N []); (Variant "DestroyedClass"%string [(Field (Some "owner"%string) 0%N (Some "T::AccountId"%string) []); (Field (Some "class_id"%string) 4%N (Some "ClassIdOf<T>"%string) [])] 5%N [])]) []).
Definition md_t184 : ty := (Ty ["module_asset_registry"%string; "module"%string; "Event"%string] [("T"%string,None)] (TVariant [(Variant "ForeignAssetRegistered"%string [(Field (Some "asset_id"%string) 40%N (Some "ForeignAssetId"%string) []); (Field (Some "asset_address"%string) 74%N (Some "MultiLocation"%string) []); (Field (Some "metadata"%string) 185%N (Some "AssetMetadata<BalanceOf<T>>"%string) [])] 0%N []); (Variant "ForeignAssetUpdated"%string [(Field (Some "asset_id"%string) 40%N (Some "ForeignAssetId"%string) []); (Field (Some "asset_address"%string) 74%N (Some "MultiLocation"%string) []); (Field (Some "metadata"%string) 185%N (Some "AssetMetadata<BalanceOf<T>>"%string) [])] 1%N []); (Variant "AssetRegistered"%string [(Field (Some "asset_id"%string) 186%N (Some "AssetIds"%string) []); (Field (Some "metadata"%string) 185%N (Some "AssetMetadata<BalanceOf<T>>"%string) [])] 2%N []); (Variant "AssetUpdated"%string [(Field (Some "asset_id"%string) 186%N (Some "AssetIds"%string) []); (Field (Some "metadata"%string) 185%N (Some "AssetMetadata<BalanceOf<T>>"%string) [])] 3%N [])]) []).
Definition md_t185 : ty := (Ty ["acala_primitives"%string; "currency"%string; "AssetMetadata"%string] [("Balance"%string,(Some 6%N))] (TComposite [(Field (Some "name"%string) 13%N (Some "Vec<u8>"%string) []); (Field (Some "symbol"%string) 13%N (Some "Vec<u8>"%string) []); (Field (Some "decimals"%string) 2%N (Some "u8"%string) []); (Field (Some "minimal_balance"%string) 6%N (Some "Balance"%string) [])]) []).
Definition md_t186 : ty := (Ty ["acala_primitives"%string; "currency"%string; "AssetIds"%string] [] (TVariant [(Variant "Erc20"%string [(Field None 42%N (Some "EvmAddress"%string) [])] 0%N []); (Variant "StableAssetId"%string [(Field None 4%N (Some "StableAssetPoolId"%string) [])] 1%N []); (Variant "ForeignAssetId"%string [(Field None 40%N (Some "ForeignAssetId"%string) [])] 2%N []); (Variant "NativeAssetId"%string [(Field None 52%N (Some "CurrencyId"%string) [])] 3%N [])]) []).
Definition md_t187 : ty := (Ty ["module_liquid_crowdloan"%string; "module"%string; "Event"%string] [("T"%string,None)] (TVariant [(Variant "Redeemed"%string [(Field (Some "currency_id"%string) 52%N (Some "CurrencyId"%string) []); (Field (Some "amount"%string) 6%N (Some "Balance"%string) [])] 0%N []); (Variant "TransferFromCrowdloanVaultRequested"%string [(Field (Some "amount"%string) 6%N (Some "Balance"%string) [])] 1%N []); (Variant "RedeemCurrencyIdUpdated"%string [(Field (Some "currency_id"%string) 52%N (Some "CurrencyId"%string) [])] 2%N [])]) []).
Definition md_t188 : ty := (Ty ["module_evm"%string; "module"%string; "Event"%string] [("T"%string,None)] (TVariant [(Variant "Created"%string [(Field (Some "from"%string) 42%N (Some "EvmAddress"%string) []); (Field (Some "contract"%string) 42%N (Some "EvmAddress"%string) []); (Field (Some "logs"%string) 189%N (Some "Vec<Log>"%string) []); (Field (Some "used_gas"%string) 11%N (Some "u64"%string) []); (Field (Some "used_storage"%string) 192%N (Some "i32"%string) [])] 0%N []); (Variant "CreatedFailed"%string [(Field (Some "from"%string) 42%N (Some "EvmAddress"%string) []); (Field (Some "contract"%string) 42%N (Some "EvmAddress"%string) []); (Field (Some "exit_reason"%string) 193%N (Some "ExitReason"%string) []); (Field (Some "logs"%string) 189%N (Some "Vec<Log>"%string) []); (Field (Some "used_gas"%string) 11%N (Some "u64"%string) []); (Field (Some "used_storage"%string) 192%N (Some "i32"%string) [])] 1%N []); (Variant "Executed"%string [(Field (Some "from"%string) 42%N (Some "EvmAddress"%string) []); (Field (Some "contract"%string) 42%N (Some "EvmAddress"%string) []); (Field (Some "logs"%string) 189%N (Some "Vec<Log>"%string) []); (Field (Some "used_gas"%string) 11%N (Some "u64"%string) []); (Field (Some "used_storage"%string) 192%N (Some "i32"%string) [])] 2%N []); (Variant "ExecutedFailed"%string [(Field (Some "from"%string) 42%N (Some "EvmAddress"%string) []); (Field (Some "contract"%string) 42%N (Some "EvmAddress"%string) []); (Field (Some "exit_reason"%string) 193%N (Some "ExitReason"%string) []); (Field (Some "output"%string) 13%N (Some "Vec<u8>"%string) []); (Field (Some "logs"%string) 189%N (Some "Vec<Log>"%string) []); (Field (Some "used_gas"%string) 11%N (Some "u64"%string) []); (Field (Some "used_storage"%string) 192%N (Some "i32"%string) [])] 3%N []); (Variant "TransferredMaintainer"%string [(Field (Some "contract"%string) 42%N (Some "EvmAddress"%string) []); (Field (Some "new_maintainer"%string) 42%N (Some "EvmAddress"%string) [])] 4%N []); (Variant "ContractDevelopmentEnabled"%string [(Field (Some "who"%string) 0%N (Some "T::AccountId"%string) [])] 5%N []); (Variant "ContractDevelopmentDisabled"%string [(Field (Some "who"%string) 0%N (Some "T::AccountId"%string) [])] 6%N []); (Variant "ContractPublished"%string [(Field (Some "contract"%string) 42%N (Some "EvmAddress"%string) [])] 7%N []); (Variant "ContractSetCode"%string [(Field (Some "contract"%string) 42%N (Some "EvmAddress"%string) [])] 8%N []); (Variant "ContractSelfdestructed"%string [(Field (Some "contract"%string) 42%N (Some "EvmAddress"%string) [])] 9%N [])]) []).
Definition md_t189 : ty := (Ty [] [] (TSequence 190%N) []).
Definition md_t190 : ty := (Ty ["ethereum"%string; "log"%string; "Log"%string] [] (TComposite [(Field (Some "address"%string) 42%N (Some "H160"%string) []); (Field (Some "topics"%string) 191%N (Some "Vec<H256>"%string) []); (Field (Some "data"%string) 13%N (Some "Bytes"%string) [])]) []).
Definition md_t191 : ty := (Ty [] [] (TSequence 12%N) []).
Definition md_t192 : ty := (Ty [] [] (TPrimitive (PrI U32)) []).
Definition md_t193 : ty := (Ty ["evm_core"%string; "error"%string; "ExitReason"%string] [] (TVariant [(Variant "Succeed"%string [(Field None 194%N (Some "ExitSucceed"%string) [])] 0%N []); (Variant "Error"%string [(Field None 195%N (Some "ExitError"%string) [])] 1%N []); (Variant "Revert"%string [(Field None 199%N (Some "ExitRevert"%string) [])] 2%N []); (Variant "Fatal"%string [(Field None 200%N (Some "ExitFatal"%string) [])] 3%N [])]) []).
Definition md_t194 : ty := (Ty ["evm_core"%string; "error"%string; "ExitSucceed"%string] [] (TVariant [(Variant "Stopped"%string [] 0%N []); (Variant "Returned"%string [] 1%N []); (Variant "Suicided"%string [] 2%N [])]) []).
Definition md_t195 : ty := (Ty ["evm_core"%string; "error"%string; "ExitError"%string] [] (TVariant [(Variant "StackUnderflow"%string [] 0%N []); (Variant "StackOverflow"%string [] 1%N []); (Variant "InvalidJump"%string [] 2%N []); (Variant "InvalidRange"%string [] 3%N []); (Variant "DesignatedInvalid"%string [] 4%N []); (Variant "CallTooDeep"%string [] 5%N []); (Variant "CreateCollision"%string [] 6%N []); (Variant "CreateContractLimit"%string [] 7%N []); (Variant "InvalidCode"%string [(Field None 196%N (Some "Opcode"%string) [])] 15%N []); (Variant "OutOfOffset"%string [] 8%N []); (Variant "OutOfGas"%string [] 9%N []); (Variant "OutOfFund"%string [] 10%N []); (Variant "PCUnderflow"%string [] 11%N []); (Variant "CreateEmpty"%string [] 12%N []); (Variant "Other"%string [(Field None 197%N (Some "Cow<'static, str>"%string) [])] 13%N [])]) []).
Definition md_t196 : ty := (Ty ["evm_core"%string; "opcode"%string; "Opcode"%string] [] (TComposite [(Field None 2%N (Some "u8"%string) [])]) []).
Definition md_t197 : ty := (Ty ["Cow"%string] [("T"%string,(Some 198%N))] (TComposite [(Field None 198%N None [])]) []).
Definition md_t198 : ty := (Ty [] [] (TPrimitive PrStr) []).
Definition md_t199 : ty := (Ty ["evm_core"%string; "error"%string; "ExitRevert"%string] [] (TVariant [(Variant "Reverted"%string [] 0%N [])]) []).
Definition md_t200 : ty := (Ty ["evm_core"%string; "error"%string; "ExitFatal"%string] [] (TVariant [(Variant "NotSupported"%string [] 0%N []); (Variant "UnhandledInterrupt"%string [] 1%N []); (Variant "CallErrorAsFatal"%string [(Field None 195%N (Some "ExitError"%string) [])] 2%N []); (Variant "Other"%string [(Field None 197%N (Some "Cow<'static, str>"%string) [])] 3%N [])]) []).
Definition md_t201 : ty := (Ty ["module_evm_accounts"%string; "module"%string; "Event"%string] [("T"%string,None)] (TVariant [(Variant "ClaimAccount"%string [(Field (Some "account_id"%string) 0%N (Some "T::AccountId"%string) []); (Field (Some "evm_address"%string) 42%N (Some "EvmAddress"%string) [])] 0%N [])]) []).
Definition md_t202 : ty := (Ty ["nutsfinance_stable_asset"%string; "pallet"%string; "Event"%string] [("T"%string,None)] (TVariant [(Variant "CreatePool"%string [(Field (Some "pool_id"%string) 4%N (Some "StableAssetPoolId"%string) []); (Field (Some "a"%string) 6%N (Some "T::AtLeast64BitUnsigned"%string) []); (Field (Some "swap_id"%string) 0%N (Some "T::AccountId"%string) []); (Field (Some "pallet_id"%string) 0%N (Some "T::AccountId"%string) [])] 0%N []); (Variant "Minted"%string [(Field (Some "minter"%string) 0%N (Some "T::AccountId"%string) []); (Field (Some "pool_id"%string) 4%N (Some "StableAssetPoolId"%string) []); (Field (Some "a"%string) 6%N (Some "T::AtLeast64BitUnsigned"%string) []); (Field (Some "input_amounts"%string) 163%N (Some "Vec<T::Balance>"%string) []); (Field (Some "min_output_amount"%string) 6%N (Some "T::Balance"%string) []); (Field (Some "balances"%string) 163%N (Some "Vec<T::Balance>"%string) []); (Field (Some "total_supply"%string) 6%N (Some "T::Balance"%string) []); (Field (Some "fee_amount"%string) 6%N (Some "T::Balance"%string) []); (Field (Some "output_amount"%string) 6%N (Some "T::Balance"%string) [])] 1%N []); (Variant "TokenSwapped"%string [(Field (Some "swapper"%string) 0%N (Some "T::AccountId"%string) []); (Field (Some "pool_id"%string) 4%N (Some "StableAssetPoolId"%string) []); (Field (Some "a"%string) 6%N (Some "T::AtLeast64BitUnsigned"%string) []); (Field (Some "input_asset"%string) 52%N (Some "T::AssetId"%string) []); (Field (Some "output_asset"%string) 52%N (Some "T::AssetId"%string) []); (Field (Some "input_amount"%string) 6%N (Some "T::Balance"%string) []); (Field (Some "min_output_amount"%string) 6%N (Some "T::Balance"%string) []); (Field (Some "balances"%string) 163%N (Some "Vec<T::Balance>"%string) []); (Field (Some "total_supply"%string) 6%N (Some "T::Balance"%string) []); (Field (Some "output_amount"%string) 6%N (Some "T::Balance"%string) [])] 2%N []); (Variant "RedeemedProportion"%string [(Field (Some "redeemer"%string) 0%N (Some "T::AccountId"%string) []); (Field (Some "pool_id"%string) 4%N (Some "StableAssetPoolId"%string) []); (Field (Some "a"%string) 6%N (Some "T::AtLeast64BitUnsigned"%string) []); (Field (Some "input_amount"%string) 6%N (Some "T::Balance"%string) []); (Field (Some "min_output_amounts"%string) 163%N (Some "Vec<T::Balance>"%string) []); (Field (Some "balances"%string) 163%N (Some "Vec<T::Balance>"%string) []); (Field (Some "total_supply"%string) 6%N (Some "T::Balance"%string) []); (Field (Some "fee_amount"%string) 6%N (Some "T::Balance"%string) []); (Field (Some "output_amounts"%string) 163%N (Some "Vec<T::Balance>"%string) [])] 3%N []); (Variant "RedeemedSingle"%string [(Field (Some "redeemer"%string) 0%N (Some "T::AccountId"%string) []); (Field (Some "pool_id"%string) 4%N (Some "StableAssetPoolId"%string) []); (Field (Some "a"%string) 6%N (Some "T::AtLeast64BitUnsigned"%string) []); (Field (Some "input_amount"%string) 6%N (Some "T::Balance"%string) []); (Field (Some "output_asset"%string) 52%N (Some "T::AssetId"%string) []); (Field (Some "min_output_amount"%string) 6%N (Some "T::Balance"%string) []); (Field (Some "balances"%string) 163%N (Some "Vec<T::Balance>"%string) []); (Field (Some "total_supply"%string) 6%N (Some "T::Balance"%string) []); (Field (Some "fee_amount"%string) 6%N (Some "T::Balance"%string) []); (Field (Some "output_amount"%string) 6%N (Some "T::Balance"%string) [])] 4%N []); (Variant "RedeemedMulti"%string [(Field (Some "redeemer"%string) 0%N (Some "T::AccountId"%string) []); (Field (Some "pool_id"%string) 4%N (Some "StableAssetPoolId"%string) []); (Field (Some "a"%string) 6%N (Some "T::AtLeast64BitUnsigned"%string) []); (Field (Some "output_amounts"%string) 163%N (Some "Vec<T::Balance>"%string) []); (Field (Some "max_input_amount"%string) 6%N (Some "T::Balance"%string) []); (Field (Some "balances"%string) 163%N (Some "Vec<T::Balance>"%string) []); (Field (Some "total_supply"%string) 6%N (Some "T::Balance"%string) []); (Field (Some "fee_amount"%string) 6%N (Some "T::Balance"%string) []); (Field (Some "input_amount"%string) 6%N (Some "T::Balance"%string) [])] 5%N []); (Variant "BalanceUpdated"%string [(Field (Some "pool_id"%string) 4%N (Some "StableAssetPoolId"%string) []); (Field (Some "old_balances"%string) 163%N (Some "Vec<T::Balance>"%string) []); (Field (Some "new_balances"%string) 163%N (Some "Vec<T::Balance>"%string) [])] 6%N []); (Variant "YieldCollected"%string [(Field (Some "pool_id"%string) 4%N (Some "StableAssetPoolId"%string) []); (Field (Some "a"%string) 6%N (Some "T::AtLeast64BitUnsigned"%string) []); (Field (Some "old_total_supply"%string) 6%N (Some "T::Balance"%string) []); (Field (Some "new_total_supply"%string) 6%N (Some "T::Balance"%string) []); (Field (Some "who"%string) 0%N (Some "T::AccountId"%string) []); (Field (Some "amount"%string) 6%N (Some "T::Balance"%string) [])] 7%N []); (Variant "FeeCollected"%string [(Field (Some "pool_id"%string) 4%N (Some "StableAssetPoolId"%string) []); (Field (Some "a"%string) 6%N (Some "T::AtLeast64BitUnsigned"%string) []); (Field (Some "old_balances"%string) 163%N (Some "Vec<T::Balance>"%string) []); (Field (Some "new_balances"%string) 163%N (Some "Vec<T::Balance>"%string) []); (Field (Some "old_total_supply"%string) 6%N (Some "T::Balance"%string) []); (Field (Some "new_total_supply"%string) 6%N (Some "T::Balance"%string) []); (Field (Some "who"%string) 0%N (Some "T::AccountId"%string) []); (Field (Some "amount"%string) 6%N (Some "T::Balance"%string) [])] 8%N []); (Variant "AModified"%string [(Field (Some "pool_id"%string) 4%N (Some "StableAssetPoolId"%string) []); (Field (Some "value"%string) 6%N (Some "T::AtLeast64BitUnsigned"%string) []); (Field (Some "time"%string) 4%N (Some "BlockNumberFor<T>"%string) [])] 9%N []); (Variant "FeeModified"%string [(Field (Some "pool_id"%string) 4%N (Some "StableAssetPoolId"%string) []); (Field (Some "mint_fee"%string) 6%N (Some "T::AtLeast64BitUnsigned"%string) []); (Field (Some "swap_fee"%string) 6%N (Some "T::AtLeast64BitUnsigned"%string) []); (Field (Some "redeem_fee"%string) 6%N (Some "T::AtLeast64BitUnsigned"%string) [])] 10%N []); (Variant "RecipientModified"%string [(Field (Some "pool_id"%string) 4%N (Some "StableAssetPoolId"%string) []); (Field (Some "fee_recipient"%string) 0%N (Some "T::AccountId"%string) []); (Field (Some "yield_recipient"%string) 0%N (Some "T::AccountId"%string) [])] 11%N [])]) []).
Definition md_t203 : ty := (Ty ["cumulus_pallet_parachain_system"%string; "pallet"%string; "Event"%string] [("T"%string,None)] (TVariant [(Variant "ValidationFunctionStored"%string [] 0%N []); (Variant "ValidationFunctionApplied"%string [(Field (Some "relay_chain_block_num"%string) 4%N (Some "RelayChainBlockNumber"%string) [])] 1%N []); (Variant "ValidationFunctionDiscarded"%string [] 2%N []); (Variant "UpgradeAuthorized"%string [(Field (Some "code_hash"%string) 12%N (Some "T::Hash"%string) [])] 3%N []); (Variant "DownwardMessagesReceived"%string [(Field (Some "count"%string) 4%N (Some "u32"%string) [])] 4%N []); (Variant "DownwardMessagesProcessed"%string [(Field (Some "weight_used"%string) 9%N (Some "Weight"%string) []); (Field (Some "dmq_head"%string) 12%N (Some "relay_chain::Hash"%string) [])] 5%N []); (Variant "UpwardMessageSent"%string [(Field (Some "message_hash"%string) 32%N (Some "Option<XcmHash>"%string) [])] 6%N [])]) []).
Definition md_t204 : ty := (Ty ["pallet_sudo"%string; "pallet"%string; "Event"%string] [("T"%string,None)] (TVariant [(Variant "Sudid"%string [(Field (Some "sudo_result"%string) 33%N (Some "DispatchResult"%string) [])] 0%N []); (Variant "KeyChanged"%string [(Field (Some "old_sudoer"%string) 141%N (Some "Option<T::AccountId>"%string) [])] 1%N []); (Variant "SudoAsDone"%string [(Field (Some "sudo_result"%string) 33%N (Some "DispatchResult"%string) [])] 2%N [])]) []).
Definition md_t205 : ty := (Ty ["frame_system"%string; "Phase"%string] [] (TVariant [(Variant "ApplyExtrinsic"%string [(Field None 4%N (Some "u32"%string) [])] 0%N []); (Variant "Finalization"%string [] 1%N []); (Variant "Initialization"%string [] 2%N [])]) []).
Definition md_t206 : ty := (Ty [] [] (TSequence 31%N) []).
Definition md_t207 : ty := (Ty ["frame_system"%string; "LastRuntimeUpgradeInfo"%string] [] (TComposite [(Field (Some "spec_version"%string) 77%N (Some "codec::Compact<u32>"%string) []); (Field (Some "spec_name"%string) 198%N (Some "sp_runtime::RuntimeString"%string) [])]) []).
Definition md_t208 : ty := (Ty ["frame_system"%string; "pallet"%string; "Call"%string] [("T"%string,None)] (TVariant [(Variant "remark"%string [(Field (Some "remark"%string) 13%N (Some "Vec<u8>"%string) [])] 0%N []); (Variant "set_heap_pages"%string [(Field (Some "pages"%string) 11%N (Some "u64"%string) [])] 1%N []); (Variant "set_code"%string [(Field (Some "code"%string) 13%N (Some "Vec<u8>"%string) [])] 2%N []); (Variant "set_code_without_checks"%string [(Field (Some "code"%string) 13%N (Some "Vec<u8>"%string) [])] 3%N []); (Variant "set_storage"%string [(Field (Some "items"%string) 209%N (Some "Vec<KeyValue>"%string) [])] 4%N []); (Variant "kill_storage"%string [(Field (Some "keys"%string) 211%N (Some "Vec<Key>"%string) [])] 5%N []); (Variant "kill_prefix"%string [(Field (Some "prefix"%string) 13%N (Some "Key"%string) []); (Field (Some "subkeys"%string) 4%N (Some "u32"%string) [])] 6%N []); (Variant "remark_with_event"%string [(Field (Some "remark"%string) 13%N (Some "Vec<u8>"%string) [])] 7%N [])]) []).
Definition md_t209 : ty := (Ty [] [] (TSequence 210%N) []).
Definition md_t210 : ty := (Ty [] [] (TTuple [13%N; 13%N]) []).
Definition md_t211 : ty := (Ty [] [] (TSequence 13%N) []).
Definition md_t212 : ty := (Ty ["frame_system"%string; "limits"%string; "BlockWeights"%string] [] (TComposite [(Field (Some "base_block"%string) 9%N (Some "Weight"%string) []); (Field (Some "max_block"%string) 9%N (Some "Weight"%string) []); (Field (Some "per_class"%string) 213%N (Some "PerDispatchClass<WeightsPerClass>"%string) [])]) []).
Definition md_t213 : ty := (Ty ["frame_support"%string; "dispatch"%string; "PerDispatchClass"%string] [("T"%string,(Some 214%N))] (TComposite [(Field (Some "normal"%string) 214%N (Some "T"%string) []); (Field (Some "operational"%string) 214%N (Some "T"%string) []); (Field (Some "mandatory"%string) 214%N (Some "T"%string) [])]) []).
Definition md_t214 : ty := (Ty ["frame_system"%string; "limits"%string; "WeightsPerClass"%string] [] (TComposite [(Field (Some "base_extrinsic"%string) 9%N (Some "Weight"%string) []); (Field (Some "max_extrinsic"%string) 215%N (Some "Option<Weight>"%string) []); (Field (Some "max_total"%string) 215%N (Some "Option<Weight>"%string) []); (Field (Some "reserved"%string) 215%N (Some "Option<Weight>"%string) [])]) []).
Definition md_t215 : ty := (Ty ["Option"%string] [("T"%string,(Some 9%N))] (TVariant [(Variant "None"%string [] 0%N []); (Variant "Some"%string [(Field None 9%N None [])] 1%N [])]) []).
Definition md_t216 : ty := (Ty ["frame_system"%string; "limits"%string; "BlockLength"%string] [] (TComposite [(Field (Some "max"%string) 217%N (Some "PerDispatchClass<u32>"%string) [])]) []).
Definition md_t217 : ty := (Ty ["frame_support"%string; "dispatch"%string; "PerDispatchClass"%string] [("T"%string,(Some 4%N))] (TComposite [(Field (Some "normal"%string) 4%N (Some "T"%string) []); (Field (Some "operational"%string) 4%N (Some "T"%string) []); (Field (Some "mandatory"%string) 4%N (Some "T"%string) [])]) []).
Definition md_t218 : ty := (Ty ["sp_weights"%string; "RuntimeDbWeight"%string] [] (TComposite [(Field (Some "read"%string) 11%N (Some "u64"%string) []); (Field (Some "write"%string) 11%N (Some "u64"%string) [])]) []).
Definition md_t219 : ty := (Ty ["sp_version"%string; "RuntimeVersion"%string] [] (TComposite [(Field (Some "spec_name"%string) 198%N (Some "RuntimeString"%string) []); (Field (Some "impl_name"%string) 198%N (Some "RuntimeString"%string) []); (Field (Some "authoring_version"%string) 4%N (Some "u32"%string) []); (Field (Some "spec_version"%string) 4%N (Some "u32"%string) []); (Field (Some "impl_version"%string) 4%N (Some "u32"%string) []); (Field (Some "apis"%string) 220%N (Some "ApisVec"%string) []); (Field (Some "transaction_version"%string) 4%N (Some "u32"%string) []); (Field (Some "state_version"%string) 2%N (Some "u8"%string) [])]) []).
Definition md_t220 : ty := (Ty ["Cow"%string] [("T"%string,(Some 221%N))] (TComposite [(Field None 221%N None [])]) []).
Definition md_t221 : ty := (Ty [] [] (TSequence 222%N) []).
Definition md_t222 : ty := (Ty [] [] (TTuple [55%N; 4%N]) []).
Definition md_t223 : ty := (Ty ["frame_system"%string; "pallet"%string; "Error"%string] [("T"%string,None)] (TVariant [(Variant "InvalidSpecName"%string [] 0%N []); (Variant "SpecVersionNeedsToIncrease"%string [] 1%N []); (Variant "FailedToExtractRuntimeVersion"%string [] 2%N []); (Variant "NonDefaultComposite"%string [] 3%N []); (Variant "NonZeroRefCount"%string [] 4%N []); (Variant "CallFiltered"%string [] 5%N [])]) []).
Definition md_t224 : ty := (Ty ["pallet_timestamp"%string; "pallet"%string; "Call"%string] [("T"%string,None)] (TVariant [(Variant "set"%string [(Field (Some "now"%string) 10%N (Some "T::Moment"%string) [])] 0%N [])]) []).
Definition md_t225 : ty := (Ty ["bounded_collections"%string; "bounded_vec"%string; "BoundedVec"%string] [("T"%string,(Some 226%N)); ("S"%string,None)] (TComposite [(Field None 369%N (Some "Vec<T>"%string) [])]) []).
Definition md_t226 : ty := (Ty ["Option"%string] [("T"%string,(Some 227%N))] (TVariant [(Variant "None"%string [] 0%N []); (Variant "Some"%string [(Field None 227%N None [])] 1%N [])]) []).
Definition md_t227 : ty := (Ty ["pallet_scheduler"%string; "Scheduled"%string] [("Name"%string,(Some 1%N)); ("Call"%string,(Some 228%N)); ("BlockNumber"%string,(Some 4%N)); ("PalletsOrigin"%string,(Some 131%N)); ("AccountId"%string,(Some 0%N))] (TComposite [(Field (Some "maybe_id"%string) 32%N (Some "Option<Name>"%string) []); (Field (Some "priority"%string) 2%N (Some "schedule::Priority"%string) []); (Field (Some "call"%string) 228%N (Some "Call"%string) []); (Field (Some "maybe_periodic"%string) 231%N (Some "Option<schedule::Period<BlockNumber>>"%string) []); (Field (Some "origin"%string) 131%N (Some "PalletsOrigin"%string) [])]) []).
Definition md_t228 : ty := (Ty ["frame_support"%string; "traits"%string; "preimages"%string; "Bounded"%string] [("T"%string,(Some 229%N))] (TVariant [(Variant "Legacy"%string [(Field (Some "hash"%string) 12%N (Some "Hash"%string) [])] 0%N []); (Variant "Inline"%string [(Field None 368%N (Some "BoundedInline"%string) [])] 1%N []); (Variant "Lookup"%string [(Field (Some "hash"%string) 12%N (Some "Hash"%string) []); (Field (Some "len"%string) 4%N (Some "u32"%string) [])] 2%N [])]) []).
Definition md_t229 : ty := (Ty ["acala_runtime"%string; "RuntimeCall"%string] [] (TVariant [(Variant "System"%string [(Field None 208%N (Some "self::sp_api_hidden_includes_construct_runtime::hidden_include::dispatch
::CallableCallFor<System, Runtime>"%string) [])] 0%N []); (Variant "Timestamp"%string [(Field None 224%N (Some "self::sp_api_hidden_includes_construct_runtime::hidden_include::dispatch
::CallableCallFor<Timestamp, Runtime>"%string) [])] 1%N []); (Variant "Scheduler"%string [(Field None 230%N (Some "self::sp_api_hidden_includes_construct_runtime::hidden_include::dispatch
::CallableCallFor<Scheduler, Runtime>"%string) [])] 2%N []); (Variant "Utility"%string [(Field None 232%N (Some "self::sp_api_hidden_includes_construct_runtime::hidden_include::dispatch
::CallableCallFor<Utility, Runtime>"%string) [])] 3%N []); (Variant "Multisig"%string [(Field None 234%N (Some "self::sp_api_hidden_includes_construct_runtime::hidden_include::dispatch
::CallableCallFor<Multisig, Runtime>"%string) [])] 4%N []); (Variant "Proxy"%string [(Field None 236%N (Some "self::sp_api_hidden_includes_construct_runtime::hidden_include::dispatch
::CallableCallFor<Proxy, Runtime>"%string) [])] 5%N []); (Variant "TransactionPause"%string [(Field None 239%N (Some "self::sp_api_hidden_includes_construct_runtime::hidden_include::dispatch
::CallableCallFor<TransactionPause, Runtime>"%string) [])] 6%N []); (Variant "IdleScheduler"%string [(Field None 240%N (Some "self::sp_api_hidden_includes_construct_runtime::hidden_include::dispatch
::CallableCallFor<IdleScheduler, Runtime>"%string) [])] 7%N []); (Variant "Preimage"%string [(Field None 241%N (Some "self::sp_api_hidden_includes_construct_runtime::hidden_include::dispatch
::CallableCallFor<Preimage, Runtime>"%string) [])] 8%N []); (Variant "Balances"%string [(Field None 242%N (Some "self::sp_api_hidden_includes_construct_runtime::hidden_include::dispatch
::CallableCallFor<Balances, Runtime>"%string) [])] 10%N []); (Variant "Currencies"%string [(Field None 243%N (Some "self::sp_api_hidden_includes_construct_runtime::hidden_include::dispatch
::CallableCallFor<Currencies, Runtime>"%string) [])] 12%N []); (Variant "Vesting"%string [(Field None 244%N (Some "self::sp_api_hidden_includes_construct_runtime::hidden_include::dispatch
::CallableCallFor<Vesting, Runtime>"%string) [])] 13%N []); (Variant "TransactionPayment"%string [(Field None 246%N (Some "self::sp_api_hidden_includes_construct_runtime::hidden_include::dispatch
::CallableCallFor<TransactionPayment, Runtime>"%string) [])] 14%N []); (Variant "Treasury"%string [(Field None 256%N (Some "self::sp_api_hidden_includes_construct_runtime::hidden_include::dispatch
::CallableCallFor<Treasury, Runtime>"%string) [])] 20%N []); (Variant "Bounties"%string [(Field None 257%N (Some "self::sp_api_hidden_includes_construct_runtime::hidden_include::dispatch
::CallableCallFor<Bounties, Runtime>"%string) [])] 21%N []); (Variant "Tips"%string [(Field None 258%N (Some "self::sp_api_hidden_includes_construct_runtime::hidden_include::dispatch
::CallableCallFor<Tips, Runtime>"%string) [])] 22%N []); (Variant "CollatorSelection"%string [(Field None 259%N (Some "self::sp_api_hidden_includes_construct_runtime::hidden_include::dispatch
::CallableCallFor<CollatorSelection, Runtime>"%string) [])] 41%N []); (Variant "Session"%string [(Field None 260%N (Some "self::sp_api_hidden_includes_construct_runtime::hidden_include::dispatch
::CallableCallFor<Session, Runtime>"%string) [])] 42%N []); (Variant "SessionManager"%string [(Field None 264%N (Some "self::sp_api_hidden_includes_construct_runtime::hidden_include::dispatch
::CallableCallFor<SessionManager, Runtime>"%string) [])] 45%N []); (Variant "XcmpQueue"%string [(Field None 265%N (Some "self::sp_api_hidden_includes_construct_runtime::hidden_include::dispatch
::CallableCallFor<XcmpQueue, Runtime>"%string) [])] 50%N []); (Variant "PolkadotXcm"%string [(Field None 266%N (Some "self::sp_api_hidden_includes_construct_runtime::hidden_include::dispatch
::CallableCallFor<PolkadotXcm, Runtime>"%string) [])] 51%N []); (Variant "DmpQueue"%string [(Field None 288%N (Some "self::sp_api_hidden_includes_construct_runtime::hidden_include::dispatch
::CallableCallFor<DmpQueue, Runtime>"%string) [])] 53%N []); (Variant "XTokens"%string [(Field None 289%N (Some "self::sp_api_hidden_includes_construct_runtime::hidden_include::dispatch
::CallableCallFor<XTokens, Runtime>"%string) [])] 54%N []); (Variant "OrmlXcm"%string [(Field None 291%N (Some "self::sp_api_hidden_includes_construct_runtime::hidden_include::dispatch
::CallableCallFor<OrmlXcm, Runtime>"%string) [])] 56%N []); (Variant "Authority"%string [(Field None 292%N (Some "self::sp_api_hidden_includes_construct_runtime::hidden_include::dispatch
::CallableCallFor<Authority, Runtime>"%string) [])] 60%N []); (Variant "GeneralCouncil"%string [(Field None 295%N (Some "self::sp_api_hidden_includes_construct_runtime::hidden_include::dispatch
::CallableCallFor<GeneralCouncil, Runtime>"%string) [])] 61%N []); (Variant "GeneralCouncilMembership"%string [(Field None 296%N (Some "self::sp_api_hidden_includes_construct_runtime::hidden_include::dispatch
::CallableCallFor<GeneralCouncilMembership, Runtime>"%string) [])] 62%N []); (Variant "FinancialCouncil"%string [(Field None 297%N (Some "self::sp_api_hidden_includes_construct_runtime::hidden_include::dispatch
::CallableCallFor<FinancialCouncil, Runtime>"%string) [])] 63%N []); (Variant "FinancialCouncilMembership"%string [(Field None 298%N (Some "self::sp_api_hidden_includes_construct_runtime::hidden_include::dispatch
::CallableCallFor<FinancialCouncilMembership, Runtime>"%string) [])] 64%N []); (Variant "HomaCouncil"%string [(Field None 299%N (Some "self::sp_api_hidden_includes_construct_runtime::hidden_include::dispatch
::CallableCallFor<HomaCouncil, Runtime>"%string) [])] 65%N []); (Variant "HomaCouncilMembership"%string [(Field None 300%N (Some "self::sp_api_hidden_includes_construct_runtime::hidden_include::dispatch
::CallableCallFor<HomaCouncilMembership, Runtime>"%string) [])] 66%N []); (Variant "TechnicalCommittee"%string [(Field None 301%N (Some "self::sp_api_hidden_includes_construct_runtime::hidden_include::dispatch
::CallableCallFor<TechnicalCommittee, Runtime>"%string) [])] 67%N []); (Variant "TechnicalCommitteeMembership"%string [(Field None 302%N (Some "self::sp_api_hidden_includes_construct_runtime::hidden_include::dispatch
::CallableCallFor<TechnicalCommitteeMembership, Runtime>"%string) [])] 68%N []); (Variant "Democracy"%string [(Field None 303%N (Some "self::sp_api_hidden_includes_construct_runtime::hidden_include::dispatch
::CallableCallFor<Democracy, Runtime>"%string) [])] 69%N []); (Variant "AcalaOracle"%string [(Field None 306%N (Some "self::sp_api_hidden_includes_construct_runtime::hidden_include::dispatch
::CallableCallFor<AcalaOracle, Runtime>"%string) [])] 70%N []); (Variant "OperatorMembershipAcala"%string [(Field None 308%N (Some "self::sp_api_hidden_includes_construct_runtime::hidden_include::dispatch
::CallableCallFor<OperatorMembershipAcala, Runtime>"%string) [])] 71%N []); (Variant "Auction"%string [(Field None 309%N (Some "self::sp_api_hidden_includes_construct_runtime::hidden_include::dispatch
::CallableCallFor<Auction, Runtime>"%string) [])] 80%N []); (Variant "Prices"%string [(Field None 310%N (Some "self::sp_api_hidden_includes_construct_runtime::hidden_include::dispatch
::CallableCallFor<Prices, Runtime>"%string) [])] 90%N []); (Variant "Dex"%string [(Field None 311%N (Some "self::sp_api_hidden_includes_construct_runtime::hidden_include::dispatch
::CallableCallFor<Dex, Runtime>"%string) [])] 91%N []); (Variant "DexOracle"%string [(Field None 312%N (Some "self::sp_api_hidden_includes_construct_runtime::hidden_include::dispatch
::CallableCallFor<DexOracle, Runtime>"%string) [])] 92%N []); (Variant "AggregatedDex"%string [(Field None 313%N (Some "self::sp_api_hidden_includes_construct_runtime::hidden_include::dispatch
::CallableCallFor<AggregatedDex, Runtime>"%string) [])] 93%N []); (Variant "Earning"%string [(Field None 318%N (Some "self::sp_api_hidden_includes_construct_runtime::hidden_include::dispatch
::CallableCallFor<Earning, Runtime>"%string) [])] 94%N []); (Variant "AuctionManager"%string [(Field None 319%N (Some "self::sp_api_hidden_includes_construct_runtime::hidden_include::dispatch
::CallableCallFor<AuctionManager, Runtime>"%string) [])] 100%N []); (Variant "Loans"%string [(Field None 320%N (Some "self::sp_api_hidden_includes_construct_runtime::hidden_include::dispatch
::CallableCallFor<Loans, Runtime>"%string) [])] 101%N []); (Variant "Honzon"%string [(Field None 321%N (Some "self::sp_api_hidden_includes_construct_runtime::hidden_include::dispatch
::CallableCallFor<Honzon, Runtime>"%string) [])] 102%N []); (Variant "CdpTreasury"%string [(Field None 322%N (Some "self::sp_api_hidden_includes_construct_runtime::hidden_include::dispatch
::CallableCallFor<CdpTreasury, Runtime>"%string) [])] 103%N []); (Variant "CdpEngine"%string [(Field None 324%N (Some "self::sp_api_hidden_includes_construct_runtime::hidden_include::dispatch
::CallableCallFor<CdpEngine, Runtime>"%string) [])] 104%N []); (Variant "EmergencyShutdown"%string [(Field None 327%N (Some "self::sp_api_hidden_includes_construct_runtime::hidden_include::dispatch
::CallableCallFor<EmergencyShutdown, Runtime>"%string) [])] 105%N []); (Variant "Homa"%string [(Field None 328%N (Some "self::sp_api_hidden_includes_construct_runtime::hidden_include::dispatch
::CallableCallFor<Homa, Runtime>"%string) [])] 116%N []); (Variant "XcmInterface"%string [(Field None 333%N (Some "self::sp_api_hidden_includes_construct_runtime::hidden_include::dispatch
::CallableCallFor<XcmInterface, Runtime>"%string) [])] 117%N []); (Variant "Incentives"%string [(Field None 336%N (Some "self::sp_api_hidden_includes_construct_runtime::hidden_include::dispatch
::CallableCallFor<Incentives, Runtime>"%string) [])] 120%N []); (Variant "NFT"%string [(Field None 341%N (Some "self::sp_api_hidden_includes_construct_runtime::hidden_include::dispatch
::CallableCallFor<NFT, Runtime>"%string) [])] 121%N []); (Variant "AssetRegistry"%string [(Field None 346%N (Some "self::sp_api_hidden_includes_construct_runtime::hidden_include::dispatch
::CallableCallFor<AssetRegistry, Runtime>"%string) [])] 122%N []); (Variant "LiquidCrowdloan"%string [(Field None 347%N (Some "self::sp_api_hidden_includes_construct_runtime::hidden_include::dispatch
::CallableCallFor<LiquidCrowdloan, Runtime>"%string) [])] 123%N []); (Variant "EVM"%string [(Field None 348%N (Some "self::sp_api_hidden_includes_construct_runtime::hidden_include::dispatch
::CallableCallFor<EVM, Runtime>"%string) [])] 130%N []); (Variant "EvmAccounts"%string [(Field None 352%N (Some "self::sp_api_hidden_includes_construct_runtime::hidden_include::dispatch
::CallableCallFor<EvmAccounts, Runtime>"%string) [])] 132%N []); (Variant "StableAsset"%string [(Field None 353%N (Some "self::sp_api_hidden_includes_construct_runtime::hidden_include::dispatch
::CallableCallFor<StableAsset, Runtime>"%string) [])] 200%N []); (Variant "ParachainSystem"%string [(Field None 354%N (Some "self::sp_api_hidden_includes_construct_runtime::hidden_include::dispatch
::CallableCallFor<ParachainSystem, Runtime>"%string) [])] 30%N []); (Variant "Sudo"%string [(Field None 367%N (Some "self::sp_api_hidden_includes_construct_runtime::hidden_include::dispatch
::CallableCallFor<Sudo, Runtime>"%string) [])] 255%N [])]) []).
Definition md_t230 : ty := (Ty ["pallet_scheduler"%string; "pallet"%string; "Call"%string] [("T"%string,None)] (TVariant [(Variant "schedule"%string [(Field (Some "when"%string) 4%N (Some "BlockNumberFor<T>"%string) []); (Field (Some "maybe_periodic"%string) 231%N (Some "Option<schedule::Period<BlockNumberFor<T>>>"%string) []); (Field (Some "priority"%string) 2%N (Some "schedule::Priority"%string) []); (Field (Some "call"%string) 229%N (Some "Box<<T as Config>::RuntimeCall>"%string) [])] 0%N []); (Variant "cancel"%string [(Field (Some "when"%string) 4%N (Some "BlockNumberFor<T>"%string) []); (Field (Some "index"%string) 4%N (Some "u32"%string) [])] 1%N []); (Variant "schedule_named"%string [(Field (Some "id"%string) 1%N (Some "TaskName"%string) []); (Field (Some "when"%string) 4%N (Some "BlockNumberFor<T>"%string) []); (Field (Some "maybe_periodic"%string) 231%N (Some "Option<schedule::Period<BlockNumberFor<T>>>"%string) []); (Field (Some "priority"%string) 2%N (Some "schedule::Priority"%string) []); (Field (Some "call"%string) 229%N (Some "Box<<T as Config>::RuntimeCall>"%string) [])] 2%N []); (Variant "cancel_named"%string [(Field (Some "id"%string) 1%N (Some "TaskName"%string) [])] 3%N []); (Variant "schedule_after"%string [(Field (Some "after"%string) 4%N (Some "BlockNumberFor<T>"%string) []); (Field (Some "maybe_periodic"%string) 231%N (Some "Option<schedule::Period<BlockNumberFor<T>>>"%string) []); (Field (Some "priority"%string) 2%N (Some "schedule::Priority"%string) []); (Field (Some "call"%string) 229%N (Some "Box<<T as Config>::RuntimeCall>"%string) [])] 4%N []); (Variant "schedule_named_after"%string [(Field (Some "id"%string) 1%N (Some "TaskName"%string) []); (Field (Some "after"%string) 4%N (Some "BlockNumberFor<T>"%string) []); (Field (Some "maybe_periodic"%string) 231%N (Some "Option<schedule::Period<BlockNumberFor<T>>>"%string) []); (Field (Some "priority"%string) 2%N (Some "schedule::Priority"%string) []); (Field (Some "call"%string) 229%N (Some "Box<<T as Config>::RuntimeCall>"%string) [])] 5%N [])]) []).
Definition md_t231 : ty := (Ty ["Option"%string] [("T"%string,(Some 31%N))] (TVariant [(Variant "None"%string [] 0%N []); (Variant "Some"%string [(Field None 31%N None [])] 1%N [])]) []).
Definition md_t232 : ty := (Ty ["pallet_utility"%string; "pallet"%string; "Call"%string] [("T"%string,None)] (TVariant [(Variant "batch"%string [(Field (Some "calls"%string) 233%N (Some "Vec<<T as Config>::RuntimeCall>"%string) [])] 0%N []); (Variant "as_derivative"%string [(Field (Some "index"%string) 40%N (Some "u16"%string) []); (Field (Some "call"%string) 229%N (Some "Box<<T as Config>::RuntimeCall>"%string) [])] 1%N []); (Variant "batch_all"%string [(Field (Some "calls"%string) 233%N (Some "Vec<<T as Config>::RuntimeCall>"%string) [])] 2%N []); (Variant "dispatch_as"%string [(Field (Some "as_origin"%string) 131%N (Some "Box<T::PalletsOrigin>"%string) []); (Field (Some "call"%string) 229%N (Some "Box<<T as Config>::RuntimeCall>"%string) [])] 3%N []); (Variant "force_batch"%string [(Field (Some "calls"%string) 233%N (Some "Vec<<T as Config>::RuntimeCall>"%string) [])] 4%N []); (Variant "with_weight"%string [(Field (Some "call"%string) 229%N (Some "Box<<T as Config>::RuntimeCall>"%string) []); (Field (Some "weight"%string) 9%N (Some "Weight"%string) [])] 5%N [])]) []).
Definition md_t233 : ty := (Ty [] [] (TSequence 229%N) []).
Definition md_t234 : ty := (Ty ["pallet_multisig"%string; "pallet"%string; "Call"%string] [("T"%string,None)] (TVariant [(Variant "as_multi_threshold_1"%string [(Field (Some "other_signatories"%string) 66%N (Some "Vec<T::AccountId>"%string) []); (Field (Some "call"%string) 229%N (Some "Box<<T as Config>::RuntimeCall>"%string) [])] 0%N []); (Variant "as_multi"%string [(Field (Some "threshold"%string) 40%N (Some "u16"%string) []); (Field (Some "other_signatories"%string) 66%N (Some "Vec<T::AccountId>"%string) []); (Field (Some "maybe_timepoint"%string) 235%N (Some "Option<Timepoint<BlockNumberFor<T>>>"%string) []); (Field (Some "call"%string) 229%N (Some "Box<<T as Config>::RuntimeCall>"%string) []); (Field (Some "max_weight"%string) 9%N (Some "Weight"%string) [])] 1%N []); (Variant "approve_as_multi"%string [(Field (Some "threshold"%string) 40%N (Some "u16"%string) []); (Field (Some "other_signatories"%string) 66%N (Some "Vec<T::AccountId>"%string) []); (Field (Some "maybe_timepoint"%string) 235%N (Some "Option<Timepoint<BlockNumberFor<T>>>"%string) []); (Field (Some "call_hash"%string) 1%N (Some "[u8; 32]"%string) []); (Field (Some "max_weight"%string) 9%N (Some "Weight"%string) [])] 2%N []); (Variant "cancel_as_multi"%string [(Field (Some "threshold"%string) 40%N (Some "u16"%string) []); (Field (Some "other_signatories"%string) 66%N (Some "Vec<T::AccountId>"%string) []); (Field (Some "timepoint"%string) 37%N (Some "Timepoint<BlockNumberFor<T>>"%string) []); (Field (Some "call_hash"%string) 1%N (Some "[u8; 32]"%string) [])] 3%N [])]) []).
Definition md_t235 : ty := (Ty ["Option"%string] [("T"%string,(Some 37%N))] (TVariant [(Variant "None"%string [] 0%N []); (Variant "Some"%string [(Field None 37%N None [])] 1%N [])]) []).
Definition md_t236 : ty := (Ty ["pallet_proxy"%string; "pallet"%string; "Call"%string] [("T"%string,None)] (TVariant [(Variant "proxy"%string [(Field (Some "real"%string) 237%N (Some "AccountIdLookupOf<T>"%string) []); (Field (Some "force_proxy_type"%string) 238%N (Some "Option<T::ProxyType>"%string) []); (Field (Some "call"%string) 229%N (Some "Box<<T as Config>::RuntimeCall>"%string) [])] 0%N []); (Variant "add_proxy"%string [(Field (Some "delegate"%string) 237%N (Some "AccountIdLookupOf<T>"%string) []); (Field (Some "proxy_type"%string) 39%N (Some "T::ProxyType"%string) []); (Field (Some "delay"%string) 4%N (Some "BlockNumberFor<T>"%string) [])] 1%N []); (Variant "remove_proxy"%string [(Field (Some "delegate"%string) 237%N (Some "AccountIdLookupOf<T>"%string) []); (Field (Some "proxy_type"%string) 39%N (Some "T::ProxyType"%string) []); (Field (Some "delay"%string) 4%N (Some "BlockNumberFor<T>"%string) [])] 2%N []); (Variant "remove_proxies"%string [] 3%N []); (Variant "create_pure"%string [(Field (Some "proxy_type"%string) 39%N (Some "T::ProxyType"%string) []); (Field (Some "delay"%string) 4%N (Some "BlockNumberFor<T>"%string) []); (Field (Some "index"%string) 40%N (Some "u16"%string) [])] 4%N []); (Variant "kill_pure"%string [(Field (Some "spawner"%string) 237%N (Some "AccountIdLookupOf<T>"%string) []); (Field (Some "proxy_type"%string) 39%N (Some "T::ProxyType"%string) []); (Field (Some "index"%string) 40%N (Some "u16"%string) []); (Field (Some "height"%string) 77%N (Some "BlockNumberFor<T>"%string) []); (Field (Some "ext_index"%string) 77%N (Some "u32"%string) [])] 5%N []); (Variant "announce"%string [(Field (Some "real"%string) 237%N (Some "AccountIdLookupOf<T>"%string) []); (Field (Some "call_hash"%string) 12%N (Some "CallHashOf<T>"%string) [])] 6%N []); (Variant "remove_announcement"%string [(Field (Some "real"%string) 237%N (Some "AccountIdLookupOf<T>"%string) []); (Field (Some "call_hash"%string) 12%N (Some "CallHashOf<T>"%string) [])] 7%N []); (Variant "reject_announcement"%string [(Field (Some "delegate"%string) 237%N (Some "AccountIdLookupOf<T>"%string) []); (Field (Some "call_hash"%string) 12%N (Some "CallHashOf<T>"%string) [])] 8%N []); (Variant "proxy_announced"%string [(Field (Some "delegate"%string) 237%N (Some "AccountIdLookupOf<T>"%string) []); (Field (Some "real"%string) 237%N (Some "AccountIdLookupOf<T>"%string) []); (Field (Some "force_proxy_type"%string) 238%N (Some "Option<T::ProxyType>"%string) []); (Field (Some "call"%string) 229%N (Some "Box<<T as Config>::RuntimeCall>"%string) [])] 9%N [])]) []).
Definition md_t237 : ty := (Ty ["sp_runtime"%string; "multiaddress"%string; "MultiAddress"%string] [("AccountId"%string,(Some 0%N)); ("AccountIndex"%string,(Some 4%N))] (TVariant [(Variant "Id"%string [(Field None 0%N (Some "AccountId"%string) [])] 0%N []); (Variant "Index"%string [(Field None 77%N (Some "AccountIndex"%string) [])] 1%N []); (Variant "Raw"%string [(Field None 13%N (Some "Vec<u8>"%string) [])] 2%N []); (Variant "Address32"%string [(Field None 1%N (Some "[u8; 32]"%string) [])] 3%N []); (Variant "Address20"%string [(Field None 43%N (Some "[u8; 20]"%string) [])] 4%N [])]) []).
Definition md_t238 : ty := (Ty ["Option"%string] [("T"%string,(Some 39%N))] (TVariant [(Variant "None"%string [] 0%N []); (Variant "Some"%string [(Field None 39%N None [])] 1%N [])]) []).
Definition md_t239 : ty := (Ty ["module_transaction_pause"%string; "module"%string; "Call"%string] [("T"%string,None)] (TVariant [(Variant "pause_transaction"%string [(Field (Some "pallet_name"%string) 13%N (Some "Vec<u8>"%string) []); (Field (Some "function_name"%string) 13%N (Some "Vec<u8>"%string) [])] 0%N []); (Variant "unpause_transaction"%string [(Field (Some "pallet_name"%string) 13%N (Some "Vec<u8>"%string) []); (Field (Some "function_name"%string) 13%N (Some "Vec<u8>"%string) [])] 1%N []); (Variant "pause_evm_precompile"%string [(Field (Some "address"%string) 42%N (Some "H160"%string) [])] 2%N []); (Variant "unpause_evm_precompile"%string [(Field (Some "address"%string) 42%N (Some "H160"%string) [])] 3%N [])]) []).
Definition md_t240 : ty := (Ty ["module_idle_scheduler"%string; "module"%string; "Call"%string] [("T"%string,None)] (TVariant [(Variant "schedule_task"%string [(Field (Some "task"%string) 45%N (Some "T::Task"%string) [])] 0%N [])]) []).
Definition md_t241 : ty := (Ty ["pallet_preimage"%string; "pallet"%string; "Call"%string] [("T"%string,None)] (TVariant [(Variant "note_preimage"%string [(Field (Some "bytes"%string) 13%N (Some "Vec<u8>"%string) [])] 0%N []); (Variant "unnote_preimage"%string [(Field (Some "hash"%string) 12%N (Some "T::Hash"%string) [])] 1%N []); (Variant "request_preimage"%string [(Field (Some "hash"%string) 12%N (Some "T::Hash"%string) [])] 2%N []); (Variant "unrequest_preimage"%string [(Field (Some "hash"%string) 12%N (Some "T::Hash"%string) [])] 3%N [])]) []).
Definition md_t242 : ty := (Ty ["pallet_balances"%string; "pallet"%string; "Call"%string] [("T"%string,None); ("I"%string,None)] (TVariant [(Variant "transfer_allow_death"%string [(Field (Some "dest"%string) 237%N (Some "AccountIdLookupOf<T>"%string) []); (Field (Some "value"%string) 59%N (Some "T::Balance"%string) [])] 0%N []); (Variant "set_balance_deprecated"%string [(Field (Some "who"%string) 237%N (Some "AccountIdLookupOf<T>"%string) []); (Field (Some "new_free"%string) 59%N (Some "T::Balance"%string) []); (Field (Some "old_reserved"%string) 59%N (Some "T::Balance"%string) [])] 1%N []); (Variant "force_transfer"%string [(Field (Some "source"%string) 237%N (Some "AccountIdLookupOf<T>"%string) []); (Field (Some "dest"%string) 237%N (Some "AccountIdLookupOf<T>"%string) []); (Field (Some "value"%string) 59%N (Some "T::Balance"%string) [])] 2%N []); (Variant "transfer_keep_alive"%string [(Field (Some "dest"%string) 237%N (Some "AccountIdLookupOf<T>"%string) []); (Field (Some "value"%string) 59%N (Some "T::Balance"%string) [])] 3%N []); (Variant "transfer_all"%string [(Field (Some "dest"%string) 237%N (Some "AccountIdLookupOf<T>"%string) []); (Field (Some "keep_alive"%string) 108%N (Some "bool"%string) [])] 4%N []); (Variant "force_unreserve"%string [(Field (Some "who"%string) 237%N (Some "AccountIdLookupOf<T>"%string) []); (Field (Some "amount"%string) 6%N (Some "T::Balance"%string) [])] 5%N []); (Variant "upgrade_accounts"%string [(Field (Some "who"%string) 66%N (Some "Vec<T::AccountId>"%string) [])] 6%N []); (Variant "transfer"%string [(Field (Some "dest"%string) 237%N (Some "AccountIdLookupOf<T>"%string) []); (Field (Some "value"%string) 59%N (Some "T::Balance"%string) [])] 7%N []); (Variant "force_set_balance"%string [(Field (Some "who"%string) 237%N (Some "AccountIdLookupOf<T>"%string) []); (Field (Some "new_free"%string) 59%N (Some "T::Balance"%string) [])] 8%N [])]) []).
Definition md_t243 : ty := (Ty ["module_currencies"%string; "module"%string; "Call"%string] [("T"%string,None)] (TVariant [(Variant "transfer"%string [(Field (Some "dest"%string) 237%N (Some "<T::Lookup as StaticLookup>::Source"%string) []); (Field (Some "currency_id"%string) 52%N (Some "CurrencyId"%string) []); (Field (Some "amount"%string) 59%N (Some "BalanceOf<T>"%string) [])] 0%N []); (Variant "transfer_native_currency"%string [(Field (Some "dest"%string) 237%N (Some "<T::Lookup as StaticLookup>::Source"%string) []); (Field (Some "amount"%string) 59%N (Some "BalanceOf<T>"%string) [])] 1%N []); (Variant "update_balance"%string [(Field (Some "who"%string) 237%N (Some "<T::Lookup as StaticLookup>::Source"%string) []); (Field (Some "currency_id"%string) 52%N (Some "CurrencyId"%string) []); (Field (Some "amount"%string) 168%N (Some "AmountOf<T>"%string) [])] 2%N []); (Variant "sweep_dust"%string [(Field (Some "currency_id"%string) 52%N (Some "CurrencyId"%string) []); (Field (Some "accounts"%string) 66%N (Some "Vec<T::AccountId>"%string) [])] 3%N []); (Variant "force_set_lock"%string [(Field (Some "who"%string) 237%N (Some "<T::Lookup as StaticLookup>::Source"%string) []); (Field (Some "currency_id"%string) 52%N (Some "CurrencyId"%string) []); (Field (Some "amount"%string) 59%N (Some "BalanceOf<T>"%string) []); (Field (Some "lock_id"%string) 55%N (Some "LockIdentifier"%string) [])] 4%N []); (Variant "force_remove_lock"%string [(Field (Some "who"%string) 237%N (Some "<T::Lookup as StaticLookup>::Source"%string) []); (Field (Some "currency_id"%string) 52%N (Some "CurrencyId"%string) []); (Field (Some "lock_id"%string) 55%N (Some "LockIdentifier"%string) [])] 5%N [])]) []).
Definition md_t244 : ty := (Ty ["orml_vesting"%string; "module"%string; "Call"%string] [("T"%string,None)] (TVariant [(Variant "claim"%string [] 0%N []); (Variant "vested_transfer"%string [(Field (Some "dest"%string) 237%N (Some "<T::Lookup as StaticLookup>::Source"%string) []); (Field (Some "schedule"%string) 58%N (Some "VestingScheduleOf<T>"%string) [])] 1%N []); (Variant "update_vesting_schedules"%string [(Field (Some "who"%string) 237%N (Some "<T::Lookup as StaticLookup>::Source"%string) []); (Field (Some "vesting_schedules"%string) 245%N (Some "Vec<VestingScheduleOf<T>>"%string) [])] 2%N []); (Variant "claim_for"%string [(Field (Some "dest"%string) 237%N (Some "<T::Lookup as StaticLookup>::Source"%string) [])] 3%N [])]) []).
Definition md_t245 : ty := (Ty [] [] (TSequence 58%N) []).
Definition md_t246 : ty := (Ty ["module_transaction_payment"%string; "module"%string; "Call"%string] [("T"%string,None)] (TVariant [(Variant "set_alternative_fee_swap_path"%string [(Field (Some "fee_swap_path"%string) 247%N (Some "Option<Vec<CurrencyId>>"%string) [])] 0%N []); (Variant "enable_charge_fee_pool"%string [(Field (Some "currency_id"%string) 52%N (Some "CurrencyId"%string) []); (Field (Some "pool_size"%string) 6%N (Some "Balance"%string) []); (Field (Some "swap_threshold"%string) 6%N (Some "Balance"%string) [])] 1%N []); (Variant "disable_charge_fee_pool"%string [(Field (Some "currency_id"%string) 52%N (Some "CurrencyId"%string) [])] 2%N []); (Variant "with_fee_path"%string [(Field (Some "fee_swap_path"%string) 162%N (Some "Vec<CurrencyId>"%string) []); (Field (Some "call"%string) 229%N (Some "Box<CallOf<T>>"%string) [])] 3%N []); (Variant "with_fee_currency"%string [(Field (Some "currency_id"%string) 52%N (Some "CurrencyId"%string) []); (Field (Some "call"%string) 229%N (Some "Box<CallOf<T>>"%string) [])] 4%N []); (Variant "with_fee_paid_by"%string [(Field (Some "call"%string) 229%N (Some "Box<CallOf<T>>"%string) []); (Field (Some "payer_addr"%string) 0%N (Some "T::AccountId"%string) []); (Field (Some "payer_sig"%string) 248%N (Some "MultiSignature"%string) [])] 5%N []); (Variant "with_fee_aggregated_path"%string [(Field (Some "fee_aggregated_path"%string) 254%N (Some "Vec<AggregatedSwapPath<CurrencyId>>"%string) []); (Field (Some "call"%string) 229%N (Some "Box<CallOf<T>>"%string) [])] 6%N [])]) []).
Definition md_t247 : ty := (Ty ["Option"%string] [("T"%string,(Some 162%N))] (TVariant [(Variant "None"%string [] 0%N []); (Variant "Some"%string [(Field None 162%N None [])] 1%N [])]) []).
Definition md_t248 : ty := (Ty ["sp_runtime"%string; "MultiSignature"%string] [] (TVariant [(Variant "Ed25519"%string [(Field None 249%N (Some "ed25519::Signature"%string) [])] 0%N []); (Variant "Sr25519"%string [(Field None 251%N (Some "sr25519::Signature"%string) [])] 1%N []); (Variant "Ecdsa"%string [(Field None 252%N (Some "ecdsa::Signature"%string) [])] 2%N [])]) []).
Definition md_t249 : ty := (Ty ["sp_core"%string; "ed25519"%string; "Signature"%string] [] (TComposite [(Field None 250%N (Some "[u8; 64]"%string) [])]) []).
Definition md_t250 : ty := (Ty [] [] (TArray 64%N 2%N) []).
Definition md_t251 : ty := (Ty ["sp_core"%string; "sr25519"%string; "Signature"%string] [] (TComposite [(Field None 250%N (Some "[u8; 64]"%string) [])]) []).
Definition md_t252 : ty := (Ty ["sp_core"%string; "ecdsa"%string; "Signature"%string] [] (TComposite [(Field None 253%N (Some "[u8; 65]"%string) [])]) []).
Definition md_t253 : ty := (Ty [] [] (TArray 65%N 2%N) []).
Definition md_t254 : ty := (Ty [] [] (TSequence 255%N) []).
Definition md_t255 : ty := (Ty ["module_support"%string; "dex"%string; "AggregatedSwapPath"%string] [("CurrencyId"%string,(Some 52%N))] (TVariant [(Variant "Dex"%string [(Field None 162%N (Some "Vec<CurrencyId>"%string) [])] 0%N []); (Variant "Taiga"%string [(Field None 4%N (Some "StableAssetPoolId"%string) []); (Field None 4%N (Some "PoolTokenIndex"%string) []); (Field None 4%N (Some "PoolTokenIndex"%string) [])] 1%N [])]) []).
Definition md_t256 : ty := (Ty ["pallet_treasury"%string; "pallet"%string; "Call"%string] [("T"%string,None); ("I"%string,None)] (TVariant [(Variant "propose_spend"%string [(Field (Some "value"%string) 59%N (Some "BalanceOf<T, I>"%string) []); (Field (Some "beneficiary"%string) 237%N (Some "AccountIdLookupOf<T>"%string) [])] 0%N []); (Variant "reject_proposal"%string [(Field (Some "proposal_id"%string) 77%N (Some "ProposalIndex"%string) [])] 1%N []); (Variant "approve_proposal"%string [(Field (Some "proposal_id"%string) 77%N (Some "ProposalIndex"%string) [])] 2%N []); (Variant "spend"%string [(Field (Some "amount"%string) 59%N (Some "BalanceOf<T, I>"%string) []); (Field (Some "beneficiary"%string) 237%N (Some "AccountIdLookupOf<T>"%string) [])] 3%N []); (Variant "remove_approval"%string [(Field (Some "proposal_id"%string) 77%N (Some "ProposalIndex"%string) [])] 4%N [])]) []).
Definition md_t257 : ty := (Ty ["pallet_bounties"%string; "pallet"%string; "Call"%string] [("T"%string,None); ("I"%string,None)] (TVariant [(Variant "propose_bounty"%string [(Field (Some "value"%string) 59%N (Some "BalanceOf<T, I>"%string) []); (Field (Some "description"%string) 13%N (Some "Vec<u8>"%string) [])] 0%N []); (Variant "approve_bounty"%string [(Field (Some "bounty_id"%string) 77%N (Some "BountyIndex"%string) [])] 1%N []); (Variant "propose_curator"%string [(Field (Some "bounty_id"%string) 77%N (Some "BountyIndex"%string) []); (Field (Some "curator"%string) 237%N (Some "AccountIdLookupOf<T>"%string) []); (Field (Some "fee"%string) 59%N (Some "BalanceOf<T, I>"%string) [])] 2%N []); (Variant "unassign_curator"%string [(Field (Some "bounty_id"%string) 77%N (Some "BountyIndex"%string) [])] 3%N []); (Variant "accept_curator"%string [(Field (Some "bounty_id"%string) 77%N (Some "BountyIndex"%string) [])] 4%N []); (Variant "award_bounty"%string [(Field (Some "bounty_id"%string) 77%N (Some "BountyIndex"%string) []); (Field (Some "beneficiary"%string) 237%N (Some "AccountIdLookupOf<T>"%string) [])] 5%N []); (Variant "claim_bounty"%string [(Field (Some "bounty_id"%string) 77%N (Some "BountyIndex"%string) [])] 6%N []); (Variant "close_bounty"%string [(Field (Some "bounty_id"%string) 77%N (Some "BountyIndex"%string) [])] 7%N []); (Variant "extend_bounty_expiry"%string [(Field (Some "bounty_id"%string) 77%N (Some "BountyIndex"%string) []); (Field (Some "remark"%string) 13%N (Some "Vec<u8>"%string) [])] 8%N [])]) []).
Definition md_t258 : ty := (Ty ["pallet_tips"%string; "pallet"%string; "Call"%string] [("T"%string,None); ("I"%string,None)] (TVariant [(Variant "report_awesome"%string [(Field (Some "reason"%string) 13%N (Some "Vec<u8>"%string) []); (Field (Some "who"%string) 237%N (Some "AccountIdLookupOf<T>"%string) [])] 0%N []); (Variant "retract_tip"%string [(Field (Some "hash"%string) 12%N (Some "T::Hash"%string) [])] 1%N []); (Variant "tip_new"%string [(Field (Some "reason"%string) 13%N (Some "Vec<u8>"%string) []); (Field (Some "who"%string) 237%N (Some "AccountIdLookupOf<T>"%string) []); (Field (Some "tip_value"%string) 59%N (Some "BalanceOf<T, I>"%string) [])] 2%N []); (Variant "tip"%string [(Field (Some "hash"%string) 12%N (Some "T::Hash"%string) []); (Field (Some "tip_value"%string) 59%N (Some "BalanceOf<T, I>"%string) [])] 3%N []); (Variant "close_tip"%string [(Field (Some "hash"%string) 12%N (Some "T::Hash"%string) [])] 4%N []); (Variant "slash_tip"%string [(Field (Some "hash"%string) 12%N (Some "T::Hash"%string) [])] 5%N [])]) []).
Definition md_t259 : ty := (Ty ["module_collator_selection"%string; "pallet"%string; "Call"%string] [("T"%string,None)] (TVariant [(Variant "set_invulnerables"%string [(Field (Some "new"%string) 66%N (Some "Vec<T::AccountId>"%string) [])] 0%N []); (Variant "set_desired_candidates"%string [(Field (Some "max"%string) 77%N (Some "u32"%string) [])] 1%N []); (Variant "set_candidacy_bond"%string [(Field (Some "bond"%string) 59%N (Some "BalanceOf<T>"%string) [])] 2%N []); (Variant "register_as_candidate"%string [] 3%N []); (Variant "register_candidate"%string [(Field (Some "new_candidate"%string) 0%N (Some "T::AccountId"%string) [])] 4%N []); (Variant "leave_intent"%string [] 5%N []); (Variant "withdraw_bond"%string [] 6%N [])]) []).
Definition md_t260 : ty := (Ty ["pallet_session"%string; "pallet"%string; "Call"%string] [("T"%string,None)] (TVariant [(Variant "set_keys"%string [(Field (Some "keys"%string) 261%N (Some "T::Keys"%string) []); (Field (Some "proof"%string) 13%N (Some "Vec<u8>"%string) [])] 0%N []); (Variant "purge_keys"%string [] 1%N [])]) []).
Definition md_t261 : ty := (Ty ["acala_runtime"%string; "SessionKeys"%string] [] (TComposite [(Field (Some "aura"%string) 262%N (Some "<Aura as $crate::BoundToRuntimeAppPublic>::Public"%string) [])]) []).
Definition md_t262 : ty := (Ty ["sp_consensus_aura"%string; "sr25519"%string; "app_sr25519"%string; "Public"%string] [] (TComposite [(Field None 263%N (Some "sr25519::Public"%string) [])]) []).
Definition md_t263 : ty := (Ty ["sp_core"%string; "sr25519"%string; "Public"%string] [] (TComposite [(Field None 1%N (Some "[u8; 32]"%string) [])]) []).
Definition md_t264 : ty := (Ty ["module_session_manager"%string; "module"%string; "Call"%string] [("T"%string,None)] (TVariant [(Variant "schedule_session_duration"%string [(Field (Some "start_session"%string) 77%N (Some "SessionIndex"%string) []); (Field (Some "duration"%string) 77%N (Some "BlockNumberFor<T>"%string) [])] 0%N [])]) []).
Definition md_t265 : ty := (Ty ["cumulus_pallet_xcmp_queue"%string; "pallet"%string; "Call"%string] [("T"%string,None)] (TVariant [(Variant "service_overweight"%string [(Field (Some "index"%string) 11%N (Some "OverweightIndex"%string) []); (Field (Some "weight_limit"%string) 9%N (Some "Weight"%string) [])] 0%N []); (Variant "suspend_xcm_execution"%string [] 1%N []); (Variant "resume_xcm_execution"%string [] 2%N []); (Variant "update_suspend_threshold"%string [(Field (Some "new"%string) 4%N (Some "u32"%string) [])] 3%N []); (Variant "update_drop_threshold"%string [(Field (Some "new"%string) 4%N (Some "u32"%string) [])] 4%N []); (Variant "update_resume_threshold"%string [(Field (Some "new"%string) 4%N (Some "u32"%string) [])] 5%N []); (Variant "update_threshold_weight"%string [(Field (Some "new"%string) 9%N (Some "Weight"%string) [])] 6%N []); (Variant "update_weight_restrict_decay"%string [(Field (Some "new"%string) 9%N (Some "Weight"%string) [])] 7%N []); (Variant "update_xcmp_max_individual_weight"%string [(Field (Some "new"%string) 9%N (Some "Weight"%string) [])] 8%N [])]) []).
Definition md_t266 : ty := (Ty ["pallet_xcm"%string; "pallet"%string; "Call"%string] [("T"%string,None)] (TVariant [(Variant "send"%string [(Field (Some "dest"%string) 124%N (Some "Box<VersionedMultiLocation>"%string) []); (Field (Some "message"%string) 267%N (Some "Box<VersionedXcm<()>>"%string) [])] 0%N []); (Variant "teleport_assets"%string [(Field (Some "dest"%string) 124%N (Some "Box<VersionedMultiLocation>"%string) []); (Field (Some "beneficiary"%string) 124%N (Some "Box<VersionedMultiLocation>"%string) []); (Field (Some "assets"%string) 110%N (Some "Box<VersionedMultiAssets>"%string) []); (Field (Some "fee_asset_item"%string) 4%N (Some "u32"%string) [])] 1%N []); (Variant "reserve_transfer_assets"%string [(Field (Some "dest"%string) 124%N (Some "Box<VersionedMultiLocation>"%string) []); (Field (Some "beneficiary"%string) 124%N (Some "Box<VersionedMultiLocation>"%string) []); (Field (Some "assets"%string) 110%N (Some "Box<VersionedMultiAssets>"%string) []); (Field (Some "fee_asset_item"%string) 4%N (Some "u32"%string) [])] 2%N []); (Variant "execute"%string [(Field (Some "message"%string) 279%N (Some "Box<VersionedXcm<<T as SysConfig>::RuntimeCall>>"%string) []); (Field (Some "max_weight"%string) 9%N (Some "Weight"%string) [])] 3%N []); (Variant "force_xcm_version"%string [(Field (Some "location"%string) 74%N (Some "Box<MultiLocation>"%string) []); (Field (Some "version"%string) 4%N (Some "XcmVersion"%string) [])] 4%N []); (Variant "force_default_xcm_version"%string [(Field (Some "maybe_xcm_version"%string) 287%N (Some "Option<XcmVersion>"%string) [])] 5%N []); (Variant "force_subscribe_version_notify"%string [(Field (Some "location"%string) 124%N (Some "Box<VersionedMultiLocation>"%string) [])] 6%N []); (Variant "force_unsubscribe_version_notify"%string [(Field (Some "location"%string) 124%N (Some "Box<VersionedMultiLocation>"%string) [])] 7%N []); (Variant "limited_reserve_transfer_assets"%string [(Field (Some "dest"%string) 124%N (Some "Box<VersionedMultiLocation>"%string) []); (Field (Some "beneficiary"%string) 124%N (Some "Box<VersionedMultiLocation>"%string) []); (Field (Some "assets"%string) 110%N (Some "Box<VersionedMultiAssets>"%string) []); (Field (Some "fee_asset_item"%string) 4%N (Some "u32"%string) []); (Field (Some "weight_limit"%string) 109%N (Some "WeightLimit"%string) [])] 8%N []); (Variant "limited_teleport_assets"%string [(Field (Some "dest"%string) 124%N (Some "Box<VersionedMultiLocation>"%string) []); (Field (Some "beneficiary"%string) 124%N (Some "Box<VersionedMultiLocation>"%string) []); (Field (Some "assets"%string) 110%N (Some "Box<VersionedMultiAssets>"%string) []); (Field (Some "fee_asset_item"%string) 4%N (Some "u32"%string) []); (Field (Some "weight_limit"%string) 109%N (Some "WeightLimit"%string) [])] 9%N []); (Variant "force_suspension"%string [(Field (Some "suspended"%string) 108%N (Some "bool"%string) [])] 10%N [])]) []).
Definition md_t267 : ty := (Ty ["xcm"%string; "VersionedXcm"%string] [("RuntimeCall"%string,None)] (TVariant [(Variant "V2"%string [(Field None 268%N (Some "v2::Xcm<RuntimeCall>"%string) [])] 2%N []); (Variant "V3"%string [(Field None 82%N (Some "v3::Xcm<RuntimeCall>"%string) [])] 3%N [])]) []).
Definition md_t268 : ty := (Ty ["xcm"%string; "v2"%string; "Xcm"%string] [("RuntimeCall"%string,None)] (TComposite [(Field None 269%N (Some "Vec<Instruction<RuntimeCall>>"%string) [])]) []).
Definition md_t269 : ty := (Ty [] [] (TSequence 270%N) []).
Definition md_t270 : ty := (Ty ["xcm"%string; "v2"%string; "Instruction"%string] [("RuntimeCall"%string,None)] (TVariant [(Variant "WithdrawAsset"%string [(Field None 111%N (Some "MultiAssets"%string) [])] 0%N []); (Variant "ReserveAssetDeposited"%string [(Field None 111%N (Some "MultiAssets"%string) [])] 1%N []); (Variant "ReceiveTeleportedAsset"%string [(Field None 111%N (Some "MultiAssets"%string) [])] 2%N []); (Variant "QueryResponse"%string [(Field (Some "query_id"%string) 10%N (Some "QueryId"%string) []); (Field (Some "response"%string) 271%N (Some "Response"%string) []); (Field (Some "max_weight"%string) 10%N (Some "u64"%string) [])] 3%N []); (Variant "TransferAsset"%string [(Field (Some "assets"%string) 111%N (Some "MultiAssets"%string) []); (Field (Some "beneficiary"%string) 115%N (Some "MultiLocation"%string) [])] 4%N []); (Variant "TransferReserveAsset"%string [(Field (Some "assets"%string) 111%N (Some "MultiAssets"%string) []); (Field (Some "dest"%string) 115%N (Some "MultiLocation"%string) []); (Field (Some "xcm"%string) 268%N (Some "Xcm<()>"%string) [])] 5%N []); (Variant "Transact"%string [(Field (Some "origin_type"%string) 102%N (Some "OriginKind"%string) []); (Field (Some "require_weight_at_most"%string) 10%N (Some "u64"%string) []); (Field (Some "call"%string) 103%N (Some "DoubleEncoded<RuntimeCall>"%string) [])] 6%N []); (Variant "HrmpNewChannelOpenRequest"%string [(Field (Some "sender"%string) 77%N (Some "u32"%string) []); (Field (Some "max_message_size"%string) 77%N (Some "u32"%string) []); (Field (Some "max_capacity"%string) 77%N (Some "u32"%string) [])] 7%N []); (Variant "HrmpChannelAccepted"%string [(Field (Some "recipient"%string) 77%N (Some "u32"%string) [])] 8%N []); (Variant "HrmpChannelClosing"%string [(Field (Some "initiator"%string) 77%N (Some "u32"%string) []); (Field (Some "sender"%string) 77%N (Some "u32"%string) []); (Field (Some "recipient"%string) 77%N (Some "u32"%string) [])] 9%N []); (Variant "ClearOrigin"%string [] 10%N []); (Variant "DescendOrigin"%string [(Field None 116%N (Some "InteriorMultiLocation"%string) [])] 11%N []); (Variant "ReportError"%string [(Field (Some "query_id"%string) 10%N (Some "QueryId"%string) []); (Field (Some "dest"%string) 115%N (Some "MultiLocation"%string) []); (Field (Some "max_response_weight"%string) 10%N (Some "u64"%string) [])] 12%N []); (Variant "DepositAsset"%string [(Field (Some "assets"%string) 275%N (Some "MultiAssetFilter"%string) []); (Field (Some "max_assets"%string) 77%N (Some "u32"%string) []); (Field (Some "beneficiary"%string) 115%N (Some "MultiLocation"%string) [])] 13%N []); (Variant "DepositReserveAsset"%string [(Field (Some "assets"%string) 275%N (Some "MultiAssetFilter"%string) []); (Field (Some "max_assets"%string) 77%N (Some "u32"%string) []); (Field (Some "dest"%string) 115%N (Some "MultiLocation"%string) []); (Field (Some "xcm"%string) 268%N (Some "Xcm<()>"%string) [])] 14%N []); (Variant "ExchangeAsset"%string [(Field (Some "give"%string) 275%N (Some "MultiAssetFilter"%string) []); (Field (Some "receive"%string) 111%N (Some "MultiAssets"%string) [])] 15%N []); (Variant "InitiateReserveWithdraw"%string [(Field (Some "assets"%string) 275%N (Some "MultiAssetFilter"%string) []); (Field (Some "reserve"%string) 115%N (Some "MultiLocation"%string) []); (Field (Some "xcm"%string) 268%N (Some "Xcm<()>"%string) [])] 16%N []); (Variant "InitiateTeleport"%string [(Field (Some "assets"%string) 275%N (Some "MultiAssetFilter"%string) []); (Field (Some "dest"%string) 115%N (Some "MultiLocation"%string) []); (Field (Some "xcm"%string) 268%N (Some "Xcm<()>"%string) [])] 17%N []); (Variant "QueryHolding"%string [(Field (Some "query_id"%string) 10%N (Some "QueryId"%string) []); (Field (Some "dest"%string) 115%N (Some "MultiLocation"%string) []); (Field (Some "assets"%string) 275%N (Some "MultiAssetFilter"%string) []); (Field (Some "max_response_weight"%string) 10%N (Some "u64"%string) [])] 18%N []); (Variant "BuyExecution"%string [(Field (Some "fees"%string) 113%N (Some "MultiAsset"%string) []); (Field (Some "weight_limit"%string) 278%N (Some "WeightLimit"%string) [])] 19%N []); (Variant "RefundSurplus"%string [] 20%N []); (Variant "SetErrorHandler"%string [(Field None 268%N (Some "Xcm<RuntimeCall>"%string) [])] 21%N []); (Variant "SetAppendix"%string [(Field None 268%N (Some "Xcm<RuntimeCall>"%string) [])] 22%N []); (Variant "ClearError"%string [] 23%N []); (Variant "ClaimAsset"%string [(Field (Some "assets"%string) 111%N (Some "MultiAssets"%string) []); (Field (Some "ticket"%string) 115%N (Some "MultiLocation"%string) [])] 24%N []); (Variant "Trap"%string [(Field None 10%N (Some "u64"%string) [])] 25%N []); (Variant "SubscribeVersion"%string [(Field (Some "query_id"%string) 10%N (Some "QueryId"%string) []); (Field (Some "max_response_weight"%string) 10%N (Some "u64"%string) [])] 26%N []); (Variant "UnsubscribeVersion"%string [] 27%N [])]) []).
Definition md_t271 : ty := (Ty ["xcm"%string; "v2"%string; "Response"%string] [] (TVariant [(Variant "Null"%string [] 0%N []); (Variant "Assets"%string [(Field None 111%N (Some "MultiAssets"%string) [])] 1%N []); (Variant "ExecutionResult"%string [(Field None 272%N (Some "Option<(u32, Error)>"%string) [])] 2%N []); (Variant "Version"%string [(Field None 4%N (Some "super::Version"%string) [])] 3%N [])]) []).
Definition md_t272 : ty := (Ty ["Option"%string] [("T"%string,(Some 273%N))] (TVariant [(Variant "None"%string [] 0%N []); (Variant "Some"%string [(Field None 273%N None [])] 1%N [])]) []).
Definition md_t273 : ty := (Ty [] [] (TTuple [4%N; 274%N]) []).
Definition md_t274 : ty := (Ty ["xcm"%string; "v2"%string; "traits"%string; "Error"%string] [] (TVariant [(Variant "Overflow"%string [] 0%N []); (Variant "Unimplemented"%string [] 1%N []); (Variant "UntrustedReserveLocation"%string [] 2%N []); (Variant "UntrustedTeleportLocation"%string [] 3%N []); (Variant "MultiLocationFull"%string [] 4%N []); (Variant "MultiLocationNotInvertible"%string [] 5%N []); (Variant "BadOrigin"%string [] 6%N []); (Variant "InvalidLocation"%string [] 7%N []); (Variant "AssetNotFound"%string [] 8%N []); (Variant "FailedToTransactAsset"%string [] 9%N []); (Variant "NotWithdrawable"%string [] 10%N []); (Variant "LocationCannotHold"%string [] 11%N []); (Variant "ExceedsMaxMessageSize"%string [] 12%N []); (Variant "DestinationUnsupported"%string [] 13%N []); (Variant "Transport"%string [] 14%N []); (Variant "Unroutable"%string [] 15%N []); (Variant "UnknownClaim"%string [] 16%N []); (Variant "FailedToDecode"%string [] 17%N []); (Variant "MaxWeightInvalid"%string [] 18%N []); (Variant "NotHoldingFees"%string [] 19%N []); (Variant "TooExpensive"%string [] 20%N []); (Variant "Trap"%string [(Field None 11%N (Some "u64"%string) [])] 21%N []); (Variant "UnhandledXcmVersion"%string [] 22%N []); (Variant "WeightLimitReached"%string [(Field None 11%N (Some "Weight"%string) [])] 23%N []); (Variant "Barrier"%string [] 24%N []); (Variant "WeightNotComputable"%string [] 25%N [])]) []).
Definition md_t275 : ty := (Ty ["xcm"%string; "v2"%string; "multiasset"%string; "MultiAssetFilter"%string] [] (TVariant [(Variant "Definite"%string [(Field None 111%N (Some "MultiAssets"%string) [])] 0%N []); (Variant "Wild"%string [(Field None 276%N (Some "WildMultiAsset"%string) [])] 1%N [])]) []).
Definition md_t276 : ty := (Ty ["xcm"%string; "v2"%string; "multiasset"%string; "WildMultiAsset"%string] [] (TVariant [(Variant "All"%string [] 0%N []); (Variant "AllOf"%string [(Field (Some "id"%string) 114%N (Some "AssetId"%string) []); (Field (Some "fun"%string) 277%N (Some "WildFungibility"%string) [])] 1%N [])]) []).
Definition md_t277 : ty := (Ty ["xcm"%string; "v2"%string; "multiasset"%string; "WildFungibility"%string] [] (TVariant [(Variant "Fungible"%string [] 0%N []); (Variant "NonFungible"%string [] 1%N [])]) []).
Definition md_t278 : ty := (Ty ["xcm"%string; "v2"%string; "WeightLimit"%string] [] (TVariant [(Variant "Unlimited"%string [] 0%N []); (Variant "Limited"%string [(Field None 10%N (Some "u64"%string) [])] 1%N [])]) []).
Definition md_t279 : ty := (Ty ["xcm"%string; "VersionedXcm"%string] [("RuntimeCall"%string,None)] (TVariant [(Variant "V2"%string [(Field None 280%N (Some "v2::Xcm<RuntimeCall>"%string) [])] 2%N []); (Variant "V3"%string [(Field None 284%N (Some "v3::Xcm<RuntimeCall>"%string) [])] 3%N [])]) []).
Definition md_t280 : ty := (Ty ["xcm"%string; "v2"%string; "Xcm"%string] [("RuntimeCall"%string,None)] (TComposite [(Field None 281%N (Some "Vec<Instruction<RuntimeCall>>"%string) [])]) []).
Definition md_t281 : ty := (Ty [] [] (TSequence 282%N) []).
Definition md_t282 : ty := (Ty ["xcm"%string; "v2"%string; "Instruction"%string] [("RuntimeCall"%string,None)] (TVariant [(Variant "WithdrawAsset"%string [(Field None 111%N (Some "MultiAssets"%string) [])] 0%N []); (Variant "ReserveAssetDeposited"%string [(Field None 111%N (Some "MultiAssets"%string) [])] 1%N []); (Variant "ReceiveTeleportedAsset"%string [(Field None 111%N (Some "MultiAssets"%string) [])] 2%N []); (Variant "QueryResponse"%string [(Field (Some "query_id"%string) 10%N (Some "QueryId"%string) []); (Field (Some "response"%string) 271%N (Some "Response"%string) []); (Field (Some "max_weight"%string) 10%N (Some "u64"%string) [])] 3%N []); (Variant "TransferAsset"%string [(Field (Some "assets"%string) 111%N (Some "MultiAssets"%string) []); (Field (Some "beneficiary"%string) 115%N (Some "MultiLocation"%string) [])] 4%N []); (Variant "TransferReserveAsset"%string [(Field (Some "assets"%string) 111%N (Some "MultiAssets"%string) []); (Field (Some "dest"%string) 115%N (Some "MultiLocation"%string) []); (Field (Some "xcm"%string) 268%N (Some "Xcm<()>"%string) [])] 5%N []); (Variant "Transact"%string [(Field (Some "origin_type"%string) 102%N (Some "OriginKind"%string) []); (Field (Some "require_weight_at_most"%string) 10%N (Some "u64"%string) []); (Field (Some "call"%string) 283%N (Some "DoubleEncoded<RuntimeCall>"%string) [])] 6%N []); (Variant "HrmpNewChannelOpenRequest"%string [(Field (Some "sender"%string) 77%N (Some "u32"%string) []); (Field (Some "max_message_size"%string) 77%N (Some "u32"%string) []); (Field (Some "max_capacity"%string) 77%N (Some "u32"%string) [])] 7%N []); (Variant "HrmpChannelAccepted"%string [(Field (Some "recipient"%string) 77%N (Some "u32"%string) [])] 8%N []); (Variant "HrmpChannelClosing"%string [(Field (Some "initiator"%string) 77%N (Some "u32"%string) []); (Field (Some "sender"%string) 77%N (Some "u32"%string) []); (Field (Some "recipient"%string) 77%N (Some "u32"%string) [])] 9%N []); (Variant "ClearOrigin"%string [] 10%N []); (Variant "DescendOrigin"%string [(Field None 116%N (Some "InteriorMultiLocation"%string) [])] 11%N []); (Variant "ReportError"%string [(Field (Some "query_id"%string) 10%N (Some "QueryId"%string) []); (Field (Some "dest"%string) 115%N (Some "MultiLocation"%string) []); (Field (Some "max_response_weight"%string) 10%N (Some "u64"%string) [])] 12%N []); (Variant "DepositAsset"%string [(Field (Some "assets"%string) 275%N (Some "MultiAssetFilter"%string) []); (Field (Some "max_assets"%string) 77%N (Some "u32"%string) []); (Field (Some "beneficiary"%string) 115%N (Some "MultiLocation"%string) [])] 13%N []); (Variant "DepositReserveAsset"%string [(Field (Some "assets"%string) 275%N (Some "MultiAssetFilter"%string) []); (Field (Some "max_assets"%string) 77%N (Some "u32"%string) []); (Field (Some "dest"%string) 115%N (Some "MultiLocation"%string) []); (Field (Some "xcm"%string) 268%N (Some "Xcm<()>"%string) [])] 14%N []); (Variant "ExchangeAsset"%string [(Field (Some "give"%string) 275%N (Some "MultiAssetFilter"%string) []); (Field (Some "receive"%string) 111%N (Some "MultiAssets"%string) [])] 15%N []); (Variant "InitiateReserveWithdraw"%string [(Field (Some "assets"%string) 275%N (Some "MultiAssetFilter"%string) []); (Field (Some "reserve"%string) 115%N (Some "MultiLocation"%string) []); (Field (Some "xcm"%string) 268%N (Some "Xcm<()>"%string) [])] 16%N []); (Variant "InitiateTeleport"%string [(Field (Some "assets"%string) 275%N (Some "MultiAssetFilter"%string) []); (Field (Some "dest"%string) 115%N (Some "MultiLocation"%string) []); (Field (Some "xcm"%string) 268%N (Some "Xcm<()>"%string) [])] 17%N []); (Variant "QueryHolding"%string [(Field (Some "query_id"%string) 10%N (Some "QueryId"%string) []); (Field (Some "dest"%string) 115%N (Some "MultiLocation"%string) []); (Field (Some "assets"%string) 275%N (Some "MultiAssetFilter"%string) []); (Field (Some "max_response_weight"%string) 10%N (Some "u64"%string) [])] 18%N []); (Variant "BuyExecution"%string [(Field (Some "fees"%string) 113%N (Some "MultiAsset"%string) []); (Field (Some "weight_limit"%string) 278%N (Some "WeightLimit"%string) [])] 19%N []); (Variant "RefundSurplus"%string [] 20%N []); (Variant "SetErrorHandler"%string [(Field None 280%N (Some "Xcm<RuntimeCall>"%string) [])] 21%N []); (Variant "SetAppendix"%string [(Field None 280%N (Some "Xcm<RuntimeCall>"%string) [])] 22%N []); (Variant "ClearError"%string [] 23%N []); (Variant "ClaimAsset"%string [(Field (Some "assets"%string) 111%N (Some "MultiAssets"%string) []); (Field (Some "ticket"%string) 115%N (Some "MultiLocation"%string) [])] 24%N []); (Variant "Trap"%string [(Field None 10%N (Some "u64"%string) [])] 25%N []); (Variant "SubscribeVersion"%string [(Field (Some "query_id"%string) 10%N (Some "QueryId"%string) []); (Field (Some "max_response_weight"%string) 10%N (Some "u64"%string) [])] 26%N []); (Variant "UnsubscribeVersion"%string [] 27%N [])]) []).
Definition md_t283 : ty := (Ty ["xcm"%string; "double_encoded"%string; "DoubleEncoded"%string] [("T"%string,None)] (TComposite [(Field (Some "encoded"%string) 13%N (Some "Vec<u8>"%string) [])]) []).
Definition md_t284 : ty := (Ty ["xcm"%string; "v3"%string; "Xcm"%string] [("Call"%string,None)] (TComposite [(Field None 285%N (Some "Vec<Instruction<Call>>"%string) [])]) []).
Definition md_t285 : ty := (Ty [] [] (TSequence 286%N) []).
Definition md_t286 : ty := (Ty ["xcm"%string; "v3"%string; "Instruction"%string] [("Call"%string,None)] (TVariant [(Variant "WithdrawAsset"%string [(Field None 85%N (Some "MultiAssets"%string) [])] 0%N []); (Variant "ReserveAssetDeposited"%string [(Field None 85%N (Some "MultiAssets"%string) [])] 1%N []); (Variant "ReceiveTeleportedAsset"%string [(Field None 85%N (Some "MultiAssets"%string) [])] 2%N []); (Variant "QueryResponse"%string [(Field (Some "query_id"%string) 10%N (Some "QueryId"%string) []); (Field (Some "response"%string) 92%N (Some "Response"%string) []); (Field (Some "max_weight"%string) 9%N (Some "Weight"%string) []); (Field (Some "querier"%string) 101%N (Some "Option<MultiLocation>"%string) [])] 3%N []); (Variant "TransferAsset"%string [(Field (Some "assets"%string) 85%N (Some "MultiAssets"%string) []); (Field (Some "beneficiary"%string) 74%N (Some "MultiLocation"%string) [])] 4%N []); (Variant "TransferReserveAsset"%string [(Field (Some "assets"%string) 85%N (Some "MultiAssets"%string) []); (Field (Some "dest"%string) 74%N (Some "MultiLocation"%string) []); (Field (Some "xcm"%string) 82%N (Some "Xcm<()>"%string) [])] 5%N []); (Variant "Transact"%string [(Field (Some "origin_kind"%string) 102%N (Some "OriginKind"%string) []); (Field (Some "require_weight_at_most"%string) 9%N (Some "Weight"%string) []); (Field (Some "call"%string) 283%N (Some "DoubleEncoded<Call>"%string) [])] 6%N []); (Variant "HrmpNewChannelOpenRequest"%string [(Field (Some "sender"%string) 77%N (Some "u32"%string) []); (Field (Some "max_message_size"%string) 77%N (Some "u32"%string) []); (Field (Some "max_capacity"%string) 77%N (Some "u32"%string) [])] 7%N []); (Variant "HrmpChannelAccepted"%string [(Field (Some "recipient"%string) 77%N (Some "u32"%string) [])] 8%N []); (Variant "HrmpChannelClosing"%string [(Field (Some "initiator"%string) 77%N (Some "u32"%string) []); (Field (Some "sender"%string) 77%N (Some "u32"%string) []); (Field (Some "recipient"%string) 77%N (Some "u32"%string) [])] 9%N []); (Variant "ClearOrigin"%string [] 10%N []); (Variant "DescendOrigin"%string [(Field None 75%N (Some "InteriorMultiLocation"%string) [])] 11%N []); (Variant "ReportError"%string [(Field None 104%N (Some "QueryResponseInfo"%string) [])] 12%N []); (Variant "DepositAsset"%string [(Field (Some "assets"%string) 105%N (Some "MultiAssetFilter"%string) []); (Field (Some "beneficiary"%string) 74%N (Some "MultiLocation"%string) [])] 13%N []); (Variant "DepositReserveAsset"%string [(Field (Some "assets"%string) 105%N (Some "MultiAssetFilter"%string) []); (Field (Some "dest"%string) 74%N (Some "MultiLocation"%string) []); (Field (Some "xcm"%string) 82%N (Some "Xcm<()>"%string) [])] 14%N []); (Variant "ExchangeAsset"%string [(Field (Some "give"%string) 105%N (Some "MultiAssetFilter"%string) []); (Field (Some "want"%string) 85%N (Some "MultiAssets"%string) []); (Field (Some "maximal"%string) 108%N (Some "bool"%string) [])] 15%N []); (Variant "InitiateReserveWithdraw"%string [(Field (Some "assets"%string) 105%N (Some "MultiAssetFilter"%string) []); (Field (Some "reserve"%string) 74%N (Some "MultiLocation"%string) []); (Field (Some "xcm"%string) 82%N (Some "Xcm<()>"%string) [])] 16%N []); (Variant "InitiateTeleport"%string [(Field (Some "assets"%string) 105%N (Some "MultiAssetFilter"%string) []); (Field (Some "dest"%string) 74%N (Some "MultiLocation"%string) []); (Field (Some "xcm"%string) 82%N (Some "Xcm<()>"%string) [])] 17%N []); (Variant "ReportHolding"%string [(Field (Some "response_info"%string) 104%N (Some "QueryResponseInfo"%string) []); (Field (Some "assets"%string) 105%N (Some "MultiAssetFilter"%string) [])] 18%N []); (Variant "BuyExecution"%string [(Field (Some "fees"%string) 87%N (Some "MultiAsset"%string) []); (Field (Some "weight_limit"%string) 109%N (Some "WeightLimit"%string) [])] 19%N []); (Variant "RefundSurplus"%string [] 20%N []); (Variant "SetErrorHandler"%string [(Field None 284%N (Some "Xcm<Call>"%string) [])] 21%N []); (Variant "SetAppendix"%string [(Field None 284%N (Some "Xcm<Call>"%string) [])] 22%N []); (Variant "ClearError"%string [] 23%N []); (Variant "ClaimAsset"%string [(Field (Some "assets"%string) 85%N (Some "MultiAssets"%string) []); (Field (Some "ticket"%string) 74%N (Some "MultiLocation"%string) [])] 24%N []); (Variant "Trap"%string [(Field None 10%N (Some "u64"%string) [])] 25%N []); (Variant "SubscribeVersion"%string [(Field (Some "query_id"%string) 10%N (Some "QueryId"%string) []); (Field (Some "max_response_weight"%string) 9%N (Some "Weight"%string) [])] 26%N []); (Variant "UnsubscribeVersion"%string [] 27%N []); (Variant "BurnAsset"%string [(Field None 85%N (Some "MultiAssets"%string) [])] 28%N []); (Variant "ExpectAsset"%string [(Field None 85%N (Some "MultiAssets"%string) [])] 29%N []); (Variant "ExpectOrigin"%string [(Field None 101%N (Some "Option<MultiLocation>"%string) [])] 30%N []); (Variant "ExpectError"%string [(Field None 93%N (Some "Option<(u32, Error)>"%string) [])] 31%N []); (Variant "ExpectTransactStatus"%string [(Field None 99%N (Some "MaybeErrorCode"%string) [])] 32%N []); (Variant "QueryPallet"%string [(Field (Some "module_name"%string) 13%N (Some "Vec<u8>"%string) []); (Field (Some "response_info"%string) 104%N (Some "QueryResponseInfo"%string) [])] 33%N []); (Variant "ExpectPallet"%string [(Field (Some "index"%string) 77%N (Some "u32"%string) []); (Field (Some "name"%string) 13%N (Some "Vec<u8>"%string) []); (Field (Some "module_name"%string) 13%N (Some "Vec<u8>"%string) []); (Field (Some "crate_major"%string) 77%N (Some "u32"%string) []); (Field (Some "min_crate_minor"%string) 77%N (Some "u32"%string) [])] 34%N []); (Variant "ReportTransactStatus"%string [(Field None 104%N (Some "QueryResponseInfo"%string) [])] 35%N []); (Variant "ClearTransactStatus"%string [] 36%N []); (Variant "UniversalOrigin"%string [(Field None 76%N (Some "Junction"%string) [])] 37%N []); (Variant "ExportMessage"%string [(Field (Some "network"%string) 79%N (Some "NetworkId"%string) []); (Field (Some "destination"%string) 75%N (Some "InteriorMultiLocation"%string) []); (Field (Some "xcm"%string) 82%N (Some "Xcm<()>"%string) [])] 38%N []); (Variant "LockAsset"%string [(Field (Some "asset"%string) 87%N (Some "MultiAsset"%string) []); (Field (Some "unlocker"%string) 74%N (Some "MultiLocation"%string) [])] 39%N []); (Variant "UnlockAsset"%string [(Field (Some "asset"%string) 87%N (Some "MultiAsset"%string) []); (Field (Some "target"%string) 74%N (Some "MultiLocation"%string) [])] 40%N []); (Variant "NoteUnlockable"%string [(Field (Some "asset"%string) 87%N (Some "MultiAsset"%string) []); (Field (Some "owner"%string) 74%N (Some "MultiLocation"%string) [])] 41%N []); (Variant "RequestUnlock"%string [(Field (Some "asset"%string) 87%N (Some "MultiAsset"%string) []); (Field (Some "locker"%string) 74%N (Some "MultiLocation"%string) [])] 42%N []); (Variant "SetFeesMode"%string [(Field (Some "jit_withdraw"%string) 108%N (Some "bool"%string) [])] 43%N []); (Variant "SetTopic"%string [(Field None 1%N (Some "[u8; 32]"%string) [])] 44%N []); (Variant "ClearTopic"%string [] 45%N []); (Variant "AliasOrigin"%string [(Field None 74%N (Some "MultiLocation"%string) [])] 46%N []); (Variant "UnpaidExecution"%string [(Field (Some "weight_limit"%string) 109%N (Some "WeightLimit"%string) []); (Field (Some "check_origin"%string) 101%N (Some "Option<MultiLocation>"%string) [])] 47%N [])]) []).
Definition md_t287 : ty := (Ty ["Option"%string] [("T"%string,(Some 4%N))] (TVariant [(Variant "None"%string [] 0%N []); (Variant "Some"%string [(Field None 4%N None [])] 1%N [])]) []).
Definition md_t288 : ty := (Ty ["cumulus_pallet_dmp_queue"%string; "pallet"%string; "Call"%string] [("T"%string,None)] (TVariant [(Variant "service_overweight"%string [(Field (Some "index"%string) 11%N (Some "OverweightIndex"%string) []); (Field (Some "weight_limit"%string) 9%N (Some "Weight"%string) [])] 0%N [])]) []).
Definition md_t289 : ty := (Ty ["orml_xtokens"%string; "module"%string; "Call"%string] [("T"%string,None)] (TVariant [(Variant "transfer"%string [(Field (Some "currency_id"%string) 52%N (Some "T::CurrencyId"%string) []); (Field (Some "amount"%string) 6%N (Some "T::Balance"%string) []); (Field (Some "dest"%string) 124%N (Some "Box<VersionedMultiLocation>"%string) []); (Field (Some "dest_weight_limit"%string) 109%N (Some "WeightLimit"%string) [])] 0%N []); (Variant "transfer_multiasset"%string [(Field (Some "asset"%string) 290%N (Some "Box<VersionedMultiAsset>"%string) []); (Field (Some "dest"%string) 124%N (Some "Box<VersionedMultiLocation>"%string) []); (Field (Some "dest_weight_limit"%string) 109%N (Some "WeightLimit"%string) [])] 1%N []); (Variant "transfer_with_fee"%string [(Field (Some "currency_id"%string) 52%N (Some "T::CurrencyId"%string) []); (Field (Some "amount"%string) 6%N (Some "T::Balance"%string) []); (Field (Some "fee"%string) 6%N (Some "T::Balance"%string) []); (Field (Some "dest"%string) 124%N (Some "Box<VersionedMultiLocation>"%string) []); (Field (Some "dest_weight_limit"%string) 109%N (Some "WeightLimit"%string) [])] 2%N []); (Variant "transfer_multiasset_with_fee"%string [(Field (Some "asset"%string) 290%N (Some "Box<VersionedMultiAsset>"%string) []); (Field (Some "fee"%string) 290%N (Some "Box<VersionedMultiAsset>"%string) []); (Field (Some "dest"%string) 124%N (Some "Box<VersionedMultiLocation>"%string) []); (Field (Some "dest_weight_limit"%string) 109%N (Some "WeightLimit"%string) [])] 3%N []); (Variant "transfer_multicurrencies"%string [(Field (Some "currencies"%string) 174%N (Some "Vec<(T::CurrencyId, T::Balance)>"%string) []); (Field (Some "fee_item"%string) 4%N (Some "u32"%string) []); (Field (Some "dest"%string) 124%N (Some "Box<VersionedMultiLocation>"%string) []); (Field (Some "dest_weight_limit"%string) 109%N (Some "WeightLimit"%string) [])] 4%N []); (Variant "transfer_multiassets"%string [(Field (Some "assets"%string) 110%N (Some "Box<VersionedMultiAssets>"%string) []); (Field (Some "fee_item"%string) 4%N (Some "u32"%string) []); (Field (Some "dest"%string) 124%N (Some "Box<VersionedMultiLocation>"%string) []); (Field (Some "dest_weight_limit"%string) 109%N (Some "WeightLimit"%string) [])] 5%N [])]) []).
Definition md_t290 : ty := (Ty ["xcm"%string; "VersionedMultiAsset"%string] [] (TVariant [(Variant "V2"%string [(Field None 113%N (Some "v2::MultiAsset"%string) [])] 1%N []); (Variant "V3"%string [(Field None 87%N (Some "v3::MultiAsset"%string) [])] 3%N [])]) []).
Definition md_t291 : ty := (Ty ["orml_xcm"%string; "module"%string; "Call"%string] [("T"%string,None)] (TVariant [(Variant "send_as_sovereign"%string [(Field (Some "dest"%string) 124%N (Some "Box<VersionedMultiLocation>"%string) []); (Field (Some "message"%string) 267%N (Some "Box<VersionedXcm<()>>"%string) [])] 0%N [])]) []).
Definition md_t292 : ty := (Ty ["orml_authority"%string; "module"%string; "Call"%string] [("T"%string,None)] (TVariant [(Variant "dispatch_as"%string [(Field (Some "as_origin"%string) 293%N (Some "T::AsOriginId"%string) []); (Field (Some "call"%string) 229%N (Some "Box<CallOf<T>>"%string) [])] 0%N []); (Variant "schedule_dispatch"%string [(Field (Some "when"%string) 294%N (Some "DispatchTime<BlockNumberFor<T>>"%string) []); (Field (Some "priority"%string) 2%N (Some "Priority"%string) []); (Field (Some "with_delayed_origin"%string) 108%N (Some "bool"%string) []); (Field (Some "call"%string) 229%N (Some "Box<CallOf<T>>"%string) [])] 1%N []); (Variant "fast_track_scheduled_dispatch"%string [(Field (Some "initial_origin"%string) 131%N (Some "Box<T::PalletsOrigin>"%string) []); (Field (Some "task_id"%string) 4%N (Some "ScheduleTaskIndex"%string) []); (Field (Some "when"%string) 294%N (Some "DispatchTime<BlockNumberFor<T>>"%string) [])] 2%N []); (Variant "delay_scheduled_dispatch"%string [(Field (Some "initial_origin"%string) 131%N (Some "Box<T::PalletsOrigin>"%string) []); (Field (Some "task_id"%string) 4%N (Some "ScheduleTaskIndex"%string) []); (Field (Some "additional_delay"%string) 4%N (Some "BlockNumberFor<T>"%string) [])] 3%N []); (Variant "cancel_scheduled_dispatch"%string [(Field (Some "initial_origin"%string) 131%N (Some "Box<T::PalletsOrigin>"%string) []); (Field (Some "task_id"%string) 4%N (Some "ScheduleTaskIndex"%string) [])] 4%N []); (Variant "authorize_call"%string [(Field (Some "call"%string) 229%N (Some "Box<CallOf<T>>"%string) []); (Field (Some "caller"%string) 141%N (Some "Option<T::AccountId>"%string) [])] 5%N []); (Variant "remove_authorized_call"%string [(Field (Some "hash"%string) 12%N (Some "T::Hash"%string) [])] 6%N []); (Variant "trigger_call"%string [(Field (Some "hash"%string) 12%N (Some "T::Hash"%string) []); (Field (Some "call_weight_bound"%string) 9%N (Some "Weight"%string) [])] 8%N [])]) []).
Definition md_t293 : ty := (Ty ["acala_primitives"%string; "AuthoritysOriginId"%string] [] (TVariant [(Variant "Root"%string [] 0%N []); (Variant "Treasury"%string [] 1%N []); (Variant "HonzonTreasury"%string [] 2%N []); (Variant "HomaTreasury"%string [] 3%N []); (Variant "TreasuryReserve"%string [] 4%N [])]) []).
Definition md_t294 : ty := (Ty ["frame_support"%string; "traits"%string; "schedule"%string; "DispatchTime"%string] [("BlockNumber"%string,(Some 4%N))] (TVariant [(Variant "At"%string [(Field None 4%N (Some "BlockNumber"%string) [])] 0%N []); (Variant "After"%string [(Field None 4%N (Some "BlockNumber"%string) [])] 1%N [])]) []).
Definition md_t295 : ty := (Ty ["pallet_collective"%string; "pallet"%string; "Call"%string] [("T"%string,None); ("I"%string,None)] (TVariant [(Variant "set_members"%string [(Field (Some "new_members"%string) 66%N (Some "Vec<T::AccountId>"%string) []); (Field (Some "prime"%string) 141%N (Some "Option<T::AccountId>"%string) []); (Field (Some "old_count"%string) 4%N (Some "MemberCount"%string) [])] 0%N []); (Variant "execute"%string [(Field (Some "proposal"%string) 229%N (Some "Box<<T as Config<I>>::Proposal>"%string) []); (Field (Some "length_bound"%string) 77%N (Some "u32"%string) [])] 1%N []); (Variant "propose"%string [(Field (Some "threshold"%string) 77%N (Some "MemberCount"%string) []); (Field (Some "proposal"%string) 229%N (Some "Box<<T as Config<I>>::Proposal>"%string) []); (Field (Some "length_bound"%string) 77%N (Some "u32"%string) [])] 2%N []); (Variant "vote"%string [(Field (Some "proposal"%string) 12%N (Some "T::Hash"%string) []); (Field (Some "index"%string) 77%N (Some "ProposalIndex"%string) []); (Field (Some "approve"%string) 108%N (Some "bool"%string) [])] 3%N []); (Variant "disapprove_proposal"%string [(Field (Some "proposal_hash"%string) 12%N (Some "T::Hash"%string) [])] 5%N []); (Variant "close"%string [(Field (Some "proposal_hash"%string) 12%N (Some "T::Hash"%string) []); (Field (Some "index"%string) 77%N (Some "ProposalIndex"%string) []); (Field (Some "proposal_weight_bound"%string) 9%N (Some "Weight"%string) []); (Field (Some "length_bound"%string) 77%N (Some "u32"%string) [])] 6%N [])]) []).
Definition md_t296 : ty := (Ty ["pallet_membership"%string; "pallet"%string; "Call"%string] [("T"%string,None); ("I"%string,None)] (TVariant [(Variant "add_member"%string [(Field (Some "who"%string) 237%N (Some "AccountIdLookupOf<T>"%string) [])] 0%N []); (Variant "remove_member"%string [(Field (Some "who"%string) 237%N (Some "AccountIdLookupOf<T>"%string) [])] 1%N []); (Variant "swap_member"%string [(Field (Some "remove"%string) 237%N (Some "AccountIdLookupOf<T>"%string) []); (Field (Some "add"%string) 237%N (Some "AccountIdLookupOf<T>"%string) [])] 2%N []); (Variant "reset_members"%string [(Field (Some "members"%string) 66%N (Some "Vec<T::AccountId>"%string) [])] 3%N []); (Variant "change_key"%string [(Field (Some "new"%string) 237%N (Some "AccountIdLookupOf<T>"%string) [])] 4%N []); (Variant "set_prime"%string [(Field (Some "who"%string) 237%N (Some "AccountIdLookupOf<T>"%string) [])] 5%N []); (Variant "clear_prime"%string [] 6%N [])]) []).
Definition md_t297 : ty := (Ty ["pallet_collective"%string; "pallet"%string; "Call"%string] [("T"%string,None); ("I"%string,None)] (TVariant [(Variant "set_members"%string [(Field (Some "new_members"%string) 66%N (Some "Vec<T::AccountId>"%string) []); (Field (Some "prime"%string) 141%N (Some "Option<T::AccountId>"%string) []); (Field (Some "old_count"%string) 4%N (Some "MemberCount"%string) [])] 0%N []); (Variant "execute"%string [(Field (Some "proposal"%string) 229%N (Some "Box<<T as Config<I>>::Proposal>"%string) []); (Field (Some "length_bound"%string) 77%N (Some "u32"%string) [])] 1%N []); (Variant "propose"%string [(Field (Some "threshold"%string) 77%N (Some "MemberCount"%string) []); (Field (Some "proposal"%string) 229%N (Some "Box<<T as Config<I>>::Proposal>"%string) []); (Field (Some "length_bound"%string) 77%N (Some "u32"%string) [])] 2%N []); (Variant "vote"%string [(Field (Some "proposal"%string) 12%N (Some "T::Hash"%string) []); (Field (Some "index"%string) 77%N (Some "ProposalIndex"%string) []); (Field (Some "approve"%string) 108%N (Some "bool"%string) [])] 3%N []); (Variant "disapprove_proposal"%string [(Field (Some "proposal_hash"%string) 12%N (Some "T::Hash"%string) [])] 5%N []); (Variant "close"%string [(Field (Some "proposal_hash"%string) 12%N (Some "T::Hash"%string) []); (Field (Some "index"%string) 77%N (Some "ProposalIndex"%string) []); (Field (Some "proposal_weight_bound"%string) 9%N (Some "Weight"%string) []); (Field (Some "length_bound"%string) 77%N (Some "u32"%string) [])] 6%N [])]) []).
Definition md_t298 : ty := (Ty ["pallet_membership"%string; "pallet"%string; "Call"%string] [("T"%string,None); ("I"%string,None)] (TVariant [(Variant "add_member"%string [(Field (Some "who"%string) 237%N (Some "AccountIdLookupOf<T>"%string) [])] 0%N []); (Variant "remove_member"%string [(Field (Some "who"%string) 237%N (Some "AccountIdLookupOf<T>"%string) [])] 1%N []); (Variant "swap_member"%string [(Field (Some "remove"%string) 237%N (Some "AccountIdLookupOf<T>"%string) []); (Field (Some "add"%string) 237%N (Some "AccountIdLookupOf<T>"%string) [])] 2%N []); (Variant "reset_members"%string [(Field (Some "members"%string) 66%N (Some "Vec<T::AccountId>"%string) [])] 3%N []); (Variant "change_key"%string [(Field (Some "new"%string) 237%N (Some "AccountIdLookupOf<T>"%string) [])] 4%N []); (Variant "set_prime"%string [(Field (Some "who"%string) 237%N (Some "AccountIdLookupOf<T>"%string) [])] 5%N []); (Variant "clear_prime"%string [] 6%N [])]) []).
Definition md_t299 : ty := (Ty ["pallet_collective"%string; "pallet"%string; "Call"%string] [("T"%string,None); ("I"%string,None)] (TVariant [(Variant "set_members"%string [(Field (Some "new_members"%string) 66%N (Some "Vec<T::AccountId>"%string) []); (Field (Some "prime"%string) 141%N (Some "Option<T::AccountId>"%string) []); (Field (Some "old_count"%string) 4%N (Some "MemberCount"%string) [])] 0%N []); (Variant "execute"%string [(Field (Some "proposal"%string) 229%N (Some "Box<<T as Config<I>>::Proposal>"%string) []); (Field (Some "length_bound"%string) 77%N (Some "u32"%string) [])] 1%N []); (Variant "propose"%string [(Field (Some "threshold"%string) 77%N (Some "MemberCount"%string) []); (Field (Some "proposal"%string) 229%N (Some "Box<<T as Config<I>>::Proposal>"%string) []); (Field (Some "length_bound"%string) 77%N (Some "u32"%string) [])] 2%N []); (Variant "vote"%string [(Field (Some "proposal"%string) 12%N (Some "T::Hash"%string) []); (Field (Some "index"%string) 77%N (Some "ProposalIndex"%string) []); (Field (Some "approve"%string) 108%N (Some "bool"%string) [])] 3%N []); (Variant "disapprove_proposal"%string [(Field (Some "proposal_hash"%string) 12%N (Some "T::Hash"%string) [])] 5%N []); (Variant "close"%string [(Field (Some "proposal_hash"%string) 12%N (Some "T::Hash"%string) []); (Field (Some "index"%string) 77%N (Some "ProposalIndex"%string) []); (Field (Some "proposal_weight_bound"%string) 9%N (Some "Weight"%string) []); (Field (Some "length_bound"%string) 77%N (Some "u32"%string) [])] 6%N [])]) []).
Definition md_t300 : ty := (Ty ["pallet_membership"%string; "pallet"%string; "Call"%string] [("T"%string,None); ("I"%string,None)] (TVariant [(Variant "add_member"%string [(Field (Some "who"%string) 237%N (Some "AccountIdLookupOf<T>"%string) [])] 0%N []); (Variant "remove_member"%string [(Field (Some "who"%string) 237%N (Some "AccountIdLookupOf<T>"%string) [])] 1%N []); (Variant "swap_member"%string [(Field (Some "remove"%string) 237%N (Some "AccountIdLookupOf<T>"%string) []); (Field (Some "add"%string) 237%N (Some "AccountIdLookupOf<T>"%string) [])] 2%N []); (Variant "reset_members"%string [(Field (Some "members"%string) 66%N (Some "Vec<T::AccountId>"%string) [])] 3%N []); (Variant "change_key"%string [(Field (Some "new"%string) 237%N (Some "AccountIdLookupOf<T>"%string) [])] 4%N []); (Variant "set_prime"%string [(Field (Some "who"%string) 237%N (Some "AccountIdLookupOf<T>"%string) [])] 5%N []); (Variant "clear_prime"%string [] 6%N [])]) []).
Definition md_t301 : ty := (Ty ["pallet_collective"%string; "pallet"%string; "Call"%string] [("T"%string,None); ("I"%string,None)] (TVariant [(Variant "set_members"%string [(Field (Some "new_members"%string) 66%N (Some "Vec<T::AccountId>"%string) []); (Field (Some "prime"%string) 141%N (Some "Option<T::AccountId>"%string) []); (Field (Some "old_count"%string) 4%N (Some "MemberCount"%string) [])] 0%N []); (Variant "execute"%string [(Field (Some "proposal"%string) 229%N (Some "Box<<T as Config<I>>::Proposal>"%string) []); (Field (Some "length_bound"%string) 77%N (Some "u32"%string) [])] 1%N []); (Variant "propose"%string [(Field (Some "threshold"%string) 77%N (Some "MemberCount"%string) []); (Field (Some "proposal"%string) 229%N (Some "Box<<T as Config<I>>::Proposal>"%string) []); (Field (Some "length_bound"%string) 77%N (Some "u32"%string) [])] 2%N []); (Variant "vote"%string [(Field (Some "proposal"%string) 12%N (Some "T::Hash"%string) []); (Field (Some "index"%string) 77%N (Some "ProposalIndex"%string) []); (Field (Some "approve"%string) 108%N (Some "bool"%string) [])] 3%N []); (Variant "disapprove_proposal"%string [(Field (Some "proposal_hash"%string) 12%N (Some "T::Hash"%string) [])] 5%N []); (Variant "close"%string [(Field (Some "proposal_hash"%string) 12%N (Some "T::Hash"%string) []); (Field (Some "index"%string) 77%N (Some "ProposalIndex"%string) []); (Field (Some "proposal_weight_bound"%string) 9%N (Some "Weight"%string) []); (Field (Some "length_bound"%string) 77%N (Some "u32"%string) [])] 6%N [])]) []).
Definition md_t302 : ty := (Ty ["pallet_membership"%string; "pallet"%string; "Call"%string] [("T"%string,None); ("I"%string,None)] (TVariant [(Variant "add_member"%string [(Field (Some "who"%string) 237%N (Some "AccountIdLookupOf<T>"%string) [])] 0%N []); (Variant "remove_member"%string [(Field (Some "who"%string) 237%N (Some "AccountIdLookupOf<T>"%string) [])] 1%N []); (Variant "swap_member"%string [(Field (Some "remove"%string) 237%N (Some "AccountIdLookupOf<T>"%string) []); (Field (Some "add"%string) 237%N (Some "AccountIdLookupOf<T>"%string) [])] 2%N []); (Variant "reset_members"%string [(Field (Some "members"%string) 66%N (Some "Vec<T::AccountId>"%string) [])] 3%N []); (Variant "change_key"%string [(Field (Some "new"%string) 237%N (Some "AccountIdLookupOf<T>"%string) [])] 4%N []); (Variant "set_prime"%string [(Field (Some "who"%string) 237%N (Some "AccountIdLookupOf<T>"%string) [])] 5%N []); (Variant "clear_prime"%string [] 6%N [])]) []).
Definition md_t303 : ty := (Ty ["pallet_democracy"%string; "pallet"%string; "Call"%string] [("T"%string,None)] (TVariant [(Variant "propose"%string [(Field (Some "proposal"%string) 228%N (Some "BoundedCallOf<T>"%string) []); (Field (Some "value"%string) 59%N (Some "BalanceOf<T>"%string) [])] 0%N []); (Variant "second"%string [(Field (Some "proposal"%string) 77%N (Some "PropIndex"%string) [])] 1%N []); (Variant "vote"%string [(Field (Some "ref_index"%string) 77%N (Some "ReferendumIndex"%string) []); (Field (Some "vote"%string) 152%N (Some "AccountVote<BalanceOf<T>>"%string) [])] 2%N []); (Variant "emergency_cancel"%string [(Field (Some "ref_index"%string) 4%N (Some "ReferendumIndex"%string) [])] 3%N []); (Variant "external_propose"%string [(Field (Some "proposal"%string) 228%N (Some "BoundedCallOf<T>"%string) [])] 4%N []); (Variant "external_propose_majority"%string [(Field (Some "proposal"%string) 228%N (Some "BoundedCallOf<T>"%string) [])] 5%N []); (Variant "external_propose_default"%string [(Field (Some "proposal"%string) 228%N (Some "BoundedCallOf<T>"%string) [])] 6%N []); (Variant "fast_track"%string [(Field (Some "proposal_hash"%string) 12%N (Some "H256"%string) []); (Field (Some "voting_period"%string) 4%N (Some "BlockNumberFor<T>"%string) []); (Field (Some "delay"%string) 4%N (Some "BlockNumberFor<T>"%string) [])] 7%N []); (Variant "veto_external"%string [(Field (Some "proposal_hash"%string) 12%N (Some "H256"%string) [])] 8%N []); (Variant "cancel_referendum"%string [(Field (Some "ref_index"%string) 77%N (Some "ReferendumIndex"%string) [])] 9%N []); (Variant "delegate"%string [(Field (Some "to"%string) 237%N (Some "AccountIdLookupOf<T>"%string) []); (Field (Some "conviction"%string) 304%N (Some "Conviction"%string) []); (Field (Some "balance"%string) 6%N (Some "BalanceOf<T>"%string) [])] 10%N []); (Variant "undelegate"%string [] 11%N []); (Variant "clear_public_proposals"%string [] 12%N []); (Variant "unlock"%string [(Field (Some "target"%string) 237%N (Some "AccountIdLookupOf<T>"%string) [])] 13%N []); (Variant "remove_vote"%string [(Field (Some "index"%string) 4%N (Some "ReferendumIndex"%string) [])] 14%N []); (Variant "remove_other_vote"%string [(Field (Some "target"%string) 237%N (Some "AccountIdLookupOf<T>"%string) []); (Field (Some "index"%string) 4%N (Some "ReferendumIndex"%string) [])] 15%N []); (Variant "blacklist"%string [(Field (Some "proposal_hash"%string) 12%N (Some "H256"%string) []); (Field (Some "maybe_ref_index"%string) 287%N (Some "Option<ReferendumIndex>"%string) [])] 16%N []); (Variant "cancel_proposal"%string [(Field (Some "prop_index"%string) 77%N (Some "PropIndex"%string) [])] 17%N []); (Variant "set_metadata"%string [(Field (Some "owner"%string) 154%N (Some "MetadataOwner"%string) []); (Field (Some "maybe_hash"%string) 305%N (Some "Option<PreimageHash>"%string) [])] 18%N [])]) []).
Definition md_t304 : ty := (Ty ["pallet_democracy"%string; "conviction"%string; "Conviction"%string] [] (TVariant [(Variant "None"%string [] 0%N []); (Variant "Locked1x"%string [] 1%N []); (Variant "Locked2x"%string [] 2%N []); (Variant "Locked3x"%string [] 3%N []); (Variant "Locked4x"%string [] 4%N []); (Variant "Locked5x"%string [] 5%N []); (Variant "Locked6x"%string [] 6%N [])]) []).
Definition md_t305 : ty := (Ty ["Option"%string] [("T"%string,(Some 12%N))] (TVariant [(Variant "None"%string [] 0%N []); (Variant "Some"%string [(Field None 12%N None [])] 1%N [])]) []).
Definition md_t306 : ty := (Ty ["orml_oracle"%string; "module"%string; "Call"%string] [("T"%string,None); ("I"%string,None)] (TVariant [(Variant "feed_values"%string [(Field (Some "values"%string) 307%N (Some "BoundedVec<(T::OracleKey, T::OracleValue), T::MaxFeedValues>"%string) [])] 0%N [])]) []).
Definition md_t307 : ty := (Ty ["bounded_collections"%string; "bounded_vec"%string; "BoundedVec"%string] [("T"%string,(Some 157%N)); ("S"%string,None)] (TComposite [(Field None 156%N (Some "Vec<T>"%string) [])]) []).
Definition md_t308 : ty := (Ty ["pallet_membership"%string; "pallet"%string; "Call"%string] [("T"%string,None); ("I"%string,None)] (TVariant [(Variant "add_member"%string [(Field (Some "who"%string) 237%N (Some "AccountIdLookupOf<T>"%string) [])] 0%N []); (Variant "remove_member"%string [(Field (Some "who"%string) 237%N (Some "AccountIdLookupOf<T>"%string) [])] 1%N []); (Variant "swap_member"%string [(Field (Some "remove"%string) 237%N (Some "AccountIdLookupOf<T>"%string) []); (Field (Some "add"%string) 237%N (Some "AccountIdLookupOf<T>"%string) [])] 2%N []); (Variant "reset_members"%string [(Field (Some "members"%string) 66%N (Some "Vec<T::AccountId>"%string) [])] 3%N []); (Variant "change_key"%string [(Field (Some "new"%string) 237%N (Some "AccountIdLookupOf<T>"%string) [])] 4%N []); (Variant "set_prime"%string [(Field (Some "who"%string) 237%N (Some "AccountIdLookupOf<T>"%string) [])] 5%N []); (Variant "clear_prime"%string [] 6%N [])]) []).
Definition md_t309 : ty := (Ty ["orml_auction"%string; "module"%string; "Call"%string] [("T"%string,None)] (TVariant [(Variant "bid"%string [(Field (Some "id"%string) 4%N (Some "T::AuctionId"%string) []); (Field (Some "value"%string) 59%N (Some "T::Balance"%string) [])] 0%N [])]) []).
Definition md_t310 : ty := (Ty ["module_prices"%string; "module"%string; "Call"%string] [("T"%string,None)] (TVariant [(Variant "lock_price"%string [(Field (Some "currency_id"%string) 52%N (Some "CurrencyId"%string) [])] 0%N []); (Variant "unlock_price"%string [(Field (Some "currency_id"%string) 52%N (Some "CurrencyId"%string) [])] 1%N [])]) []).
Definition md_t311 : ty := (Ty ["module_dex"%string; "module"%string; "Call"%string] [("T"%string,None)] (TVariant [(Variant "swap_with_exact_supply"%string [(Field (Some "path"%string) 162%N (Some "Vec<CurrencyId>"%string) []); (Field (Some "supply_amount"%string) 59%N (Some "Balance"%string) []); (Field (Some "min_target_amount"%string) 59%N (Some "Balance"%string) [])] 0%N []); (Variant "swap_with_exact_target"%string [(Field (Some "path"%string) 162%N (Some "Vec<CurrencyId>"%string) []); (Field (Some "target_amount"%string) 59%N (Some "Balance"%string) []); (Field (Some "max_supply_amount"%string) 59%N (Some "Balance"%string) [])] 1%N []); (Variant "add_liquidity"%string [(Field (Some "currency_id_a"%string) 52%N (Some "CurrencyId"%string) []); (Field (Some "currency_id_b"%string) 52%N (Some "CurrencyId"%string) []); (Field (Some "max_amount_a"%string) 59%N (Some "Balance"%string) []); (Field (Some "max_amount_b"%string) 59%N (Some "Balance"%string) []); (Field (Some "min_share_increment"%string) 59%N (Some "Balance"%string) []); (Field (Some "stake_increment_share"%string) 108%N (Some "bool"%string) [])] 2%N []); (Variant "add_provision"%string [(Field (Some "currency_id_a"%string) 52%N (Some "CurrencyId"%string) []); (Field (Some "currency_id_b"%string) 52%N (Some "CurrencyId"%string) []); (Field (Some "amount_a"%string) 59%N (Some "Balance"%string) []); (Field (Some "amount_b"%string) 59%N (Some "Balance"%string) [])] 3%N []); (Variant "claim_dex_share"%string [(Field (Some "owner"%string) 0%N (Some "T::AccountId"%string) []); (Field (Some "currency_id_a"%string) 52%N (Some "CurrencyId"%string) []); (Field (Some "currency_id_b"%string) 52%N (Some "CurrencyId"%string) [])] 4%N []); (Variant "remove_liquidity"%string [(Field (Some "currency_id_a"%string) 52%N (Some "CurrencyId"%string) []); (Field (Some "currency_id_b"%string) 52%N (Some "CurrencyId"%string) []); (Field (Some "remove_share"%string) 59%N (Some "Balance"%string) []); (Field (Some "min_withdrawn_a"%string) 59%N (Some "Balance"%string) []); (Field (Some "min_withdrawn_b"%string) 59%N (Some "Balance"%string) []); (Field (Some "by_unstake"%string) 108%N (Some "bool"%string) [])] 5%N []); (Variant "list_provisioning"%string [(Field (Some "currency_id_a"%string) 52%N (Some "CurrencyId"%string) []); (Field (Some "currency_id_b"%string) 52%N (Some "CurrencyId"%string) []); (Field (Some "min_contribution_a"%string) 59%N (Some "Balance"%string) []); (Field (Some "min_contribution_b"%string) 59%N (Some "Balance"%string) []); (Field (Some "target_provision_a"%string) 59%N (Some "Balance"%string) []); (Field (Some "target_provision_b"%string) 59%N (Some "Balance"%string) []); (Field (Some "not_before"%string) 77%N (Some "BlockNumberFor<T>"%string) [])] 6%N []); (Variant "update_provisioning_parameters"%string [(Field (Some "currency_id_a"%string) 52%N (Some "CurrencyId"%string) []); (Field (Some "currency_id_b"%string) 52%N (Some "CurrencyId"%string) []); (Field (Some "min_contribution_a"%string) 59%N (Some "Balance"%string) []); (Field (Some "min_contribution_b"%string) 59%N (Some "Balance"%string) []); (Field (Some "target_provision_a"%string) 59%N (Some "Balance"%string) []); (Field (Some "target_provision_b"%string) 59%N (Some "Balance"%string) []); (Field (Some "not_before"%string) 77%N (Some "BlockNumberFor<T>"%string) [])] 7%N []); (Variant "end_provisioning"%string [(Field (Some "currency_id_a"%string) 52%N (Some "CurrencyId"%string) []); (Field (Some "currency_id_b"%string) 52%N (Some "CurrencyId"%string) [])] 8%N []); (Variant "enable_trading_pair"%string [(Field (Some "currency_id_a"%string) 52%N (Some "CurrencyId"%string) []); (Field (Some "currency_id_b"%string) 52%N (Some "CurrencyId"%string) [])] 9%N []); (Variant "disable_trading_pair"%string [(Field (Some "currency_id_a"%string) 52%N (Some "CurrencyId"%string) []); (Field (Some "currency_id_b"%string) 52%N (Some "CurrencyId"%string) [])] 10%N []); (Variant "refund_provision"%string [(Field (Some "owner"%string) 0%N (Some "T::AccountId"%string) []); (Field (Some "currency_id_a"%string) 52%N (Some "CurrencyId"%string) []); (Field (Some "currency_id_b"%string) 52%N (Some "CurrencyId"%string) [])] 11%N []); (Variant "abort_provisioning"%string [(Field (Some "currency_id_a"%string) 52%N (Some "CurrencyId"%string) []); (Field (Some "currency_id_b"%string) 52%N (Some "CurrencyId"%string) [])] 12%N [])]) []).
Definition md_t312 : ty := (Ty ["module_dex_oracle"%string; "module"%string; "Call"%string] [("T"%string,None)] (TVariant [(Variant "enable_average_price"%string [(Field (Some "currency_id_a"%string) 52%N (Some "CurrencyId"%string) []); (Field (Some "currency_id_b"%string) 52%N (Some "CurrencyId"%string) []); (Field (Some "interval"%string) 11%N (Some "MomentOf<T>"%string) [])] 0%N []); (Variant "disable_average_price"%string [(Field (Some "currency_id_a"%string) 52%N (Some "CurrencyId"%string) []); (Field (Some "currency_id_b"%string) 52%N (Some "CurrencyId"%string) [])] 1%N []); (Variant "update_average_price_interval"%string [(Field (Some "currency_id_a"%string) 52%N (Some "CurrencyId"%string) []); (Field (Some "currency_id_b"%string) 52%N (Some "CurrencyId"%string) []); (Field (Some "new_interval"%string) 11%N (Some "MomentOf<T>"%string) [])] 2%N [])]) []).
Definition md_t313 : ty := (Ty ["module_aggregated_dex"%string; "module"%string; "Call"%string] [("T"%string,None)] (TVariant [(Variant "swap_with_exact_supply"%string [(Field (Some "paths"%string) 254%N (Some "Vec<SwapPath>"%string) []); (Field (Some "supply_amount"%string) 59%N (Some "Balance"%string) []); (Field (Some "min_target_amount"%string) 59%N (Some "Balance"%string) [])] 0%N []); (Variant "swap_with_exact_target"%string [(Field (Some "paths"%string) 254%N (Some "Vec<SwapPath>"%string) []); (Field (Some "target_amount"%string) 59%N (Some "Balance"%string) []); (Field (Some "max_supply_amount"%string) 59%N (Some "Balance"%string) [])] 1%N []); (Variant "update_aggregated_swap_paths"%string [(Field (Some "updates"%string) 314%N (Some "Vec<((CurrencyId, CurrencyId), Option<Vec<SwapPath>>)>"%string) [])] 2%N [])]) []).
Definition md_t314 : ty := (Ty [] [] (TSequence 315%N) []).
Definition md_t315 : ty := (Ty [] [] (TTuple [316%N; 317%N]) []).
Definition md_t316 : ty := (Ty [] [] (TTuple [52%N; 52%N]) []).
Definition md_t317 : ty := (Ty ["Option"%string] [("T"%string,(Some 254%N))] (TVariant [(Variant "None"%string [] 0%N []); (Variant "Some"%string [(Field None 254%N None [])] 1%N [])]) []).
Definition md_t318 : ty := (Ty ["module_earning"%string; "module"%string; "Call"%string] [("T"%string,None)] (TVariant [(Variant "bond"%string [(Field (Some "amount"%string) 59%N (Some "Balance"%string) [])] 0%N []); (Variant "unbond"%string [(Field (Some "amount"%string) 59%N (Some "Balance"%string) [])] 1%N []); (Variant "unbond_instant"%string [(Field (Some "amount"%string) 59%N (Some "Balance"%string) [])] 2%N []); (Variant "rebond"%string [(Field (Some "amount"%string) 59%N (Some "Balance"%string) [])] 3%N []); (Variant "withdraw_unbonded"%string [] 4%N [])]) []).
Definition md_t319 : ty := (Ty ["module_auction_manager"%string; "module"%string; "Call"%string] [("T"%string,None)] (TVariant [(Variant "cancel"%string [(Field (Some "id"%string) 4%N (Some "AuctionId"%string) [])] 0%N [])]) []).
Definition md_t320 : ty := (Ty ["module_loans"%string; "module"%string; "Call"%string] [("T"%string,None)] (TVariant []) []).
Definition md_t321 : ty := (Ty ["module_honzon"%string; "module"%string; "Call"%string] [("T"%string,None)] (TVariant [(Variant "adjust_loan"%string [(Field (Some "currency_id"%string) 52%N (Some "CurrencyId"%string) []); (Field (Some "collateral_adjustment"%string) 168%N (Some "Amount"%string) []); (Field (Some "debit_adjustment"%string) 168%N (Some "Amount"%string) [])] 0%N []); (Variant "close_loan_has_debit_by_dex"%string [(Field (Some "currency_id"%string) 52%N (Some "CurrencyId"%string) []); (Field (Some "max_collateral_amount"%string) 59%N (Some "Balance"%string) [])] 1%N []); (Variant "transfer_loan_from"%string [(Field (Some "currency_id"%string) 52%N (Some "CurrencyId"%string) []); (Field (Some "from"%string) 237%N (Some "<T::Lookup as StaticLookup>::Source"%string) [])] 2%N []); (Variant "authorize"%string [(Field (Some "currency_id"%string) 52%N (Some "CurrencyId"%string) []); (Field (Some "to"%string) 237%N (Some "<T::Lookup as StaticLookup>::Source"%string) [])] 3%N []); (Variant "unauthorize"%string [(Field (Some "currency_id"%string) 52%N (Some "CurrencyId"%string) []); (Field (Some "to"%string) 237%N (Some "<T::Lookup as StaticLookup>::Source"%string) [])] 4%N []); (Variant "unauthorize_all"%string [] 5%N []); (Variant "expand_position_collateral"%string [(Field (Some "currency_id"%string) 52%N (Some "CurrencyId"%string) []); (Field (Some "increase_debit_value"%string) 6%N (Some "Balance"%string) []); (Field (Some "min_increase_collateral"%string) 6%N (Some "Balance"%string) [])] 6%N []); (Variant "shrink_position_debit"%string [(Field (Some "currency_id"%string) 52%N (Some "CurrencyId"%string) []); (Field (Some "decrease_collateral"%string) 6%N (Some "Balance"%string) []); (Field (Some "min_decrease_debit_value"%string) 6%N (Some "Balance"%string) [])] 7%N []); (Variant "adjust_loan_by_debit_value"%string [(Field (Some "currency_id"%string) 52%N (Some "CurrencyId"%string) []); (Field (Some "collateral_adjustment"%string) 168%N (Some "Amount"%string) []); (Field (Some "debit_value_adjustment"%string) 168%N (Some "Amount"%string) [])] 8%N []); (Variant "transfer_debit"%string [(Field (Some "from_currency"%string) 52%N (Some "CurrencyId"%string) []); (Field (Some "to_currency"%string) 52%N (Some "CurrencyId"%string) []); (Field (Some "debit_transfer"%string) 6%N (Some "Balance"%string) [])] 9%N [])]) []).
Definition md_t322 : ty := (Ty ["module_cdp_treasury"%string; "module"%string; "Call"%string] [("T"%string,None)] (TVariant [(Variant "extract_surplus_to_treasury"%string [(Field (Some "amount"%string) 59%N (Some "Balance"%string) [])] 0%N []); (Variant "auction_collateral"%string [(Field (Some "currency_id"%string) 52%N (Some "CurrencyId"%string) []); (Field (Some "amount"%string) 59%N (Some "Balance"%string) []); (Field (Some "target"%string) 59%N (Some "Balance"%string) []); (Field (Some "splited"%string) 108%N (Some "bool"%string) [])] 1%N []); (Variant "exchange_collateral_to_stable"%string [(Field (Some "currency_id"%string) 52%N (Some "CurrencyId"%string) []); (Field (Some "swap_limit"%string) 323%N (Some "SwapLimit<Balance>"%string) [])] 2%N []); (Variant "set_expected_collateral_auction_size"%string [(Field (Some "currency_id"%string) 52%N (Some "CurrencyId"%string) []); (Field (Some "size"%string) 59%N (Some "Balance"%string) [])] 3%N []); (Variant "set_debit_offset_buffer"%string [(Field (Some "amount"%string) 59%N (Some "Balance"%string) [])] 4%N [])]) []).
Definition md_t323 : ty := (Ty ["module_support"%string; "dex"%string; "SwapLimit"%string] [("Balance"%string,(Some 6%N))] (TVariant [(Variant "ExactSupply"%string [(Field None 6%N (Some "Balance"%string) []); (Field None 6%N (Some "Balance"%string) [])] 0%N []); (Variant "ExactTarget"%string [(Field None 6%N (Some "Balance"%string) []); (Field None 6%N (Some "Balance"%string) [])] 1%N [])]) []).
Definition md_t324 : ty := (Ty ["module_cdp_engine"%string; "module"%string; "Call"%string] [("T"%string,None)] (TVariant [(Variant "liquidate"%string [(Field (Some "currency_id"%string) 52%N (Some "CurrencyId"%string) []); (Field (Some "who"%string) 237%N (Some "<T::Lookup as StaticLookup>::Source"%string) [])] 0%N []); (Variant "settle"%string [(Field (Some "currency_id"%string) 52%N (Some "CurrencyId"%string) []); (Field (Some "who"%string) 237%N (Some "<T::Lookup as StaticLookup>::Source"%string) [])] 1%N []); (Variant "set_collateral_params"%string [(Field (Some "currency_id"%string) 52%N (Some "CurrencyId"%string) []); (Field (Some "interest_rate_per_sec"%string) 325%N (Some "ChangeOptionRate"%string) []); (Field (Some "liquidation_ratio"%string) 325%N (Some "ChangeOptionRatio"%string) []); (Field (Some "liquidation_penalty"%string) 325%N (Some "ChangeOptionRate"%string) []); (Field (Some "required_collateral_ratio"%string) 325%N (Some "ChangeOptionRatio"%string) []); (Field (Some "maximum_total_debit_value"%string) 326%N (Some "ChangeBalance"%string) [])] 2%N []); (Variant "register_liquidation_contract"%string [(Field (Some "address"%string) 42%N (Some "EvmAddress"%string) [])] 3%N []); (Variant "deregister_liquidation_contract"%string [(Field (Some "address"%string) 42%N (Some "EvmAddress"%string) [])] 4%N [])]) []).
Definition md_t325 : ty := (Ty ["orml_traits"%string; "Change"%string] [("Value"%string,(Some 172%N))] (TVariant [(Variant "NoChange"%string [] 0%N []); (Variant "NewValue"%string [(Field None 172%N (Some "Value"%string) [])] 1%N [])]) []).
Definition md_t326 : ty := (Ty ["orml_traits"%string; "Change"%string] [("Value"%string,(Some 6%N))] (TVariant [(Variant "NoChange"%string [] 0%N []); (Variant "NewValue"%string [(Field None 6%N (Some "Value"%string) [])] 1%N [])]) []).
Definition md_t327 : ty := (Ty ["module_emergency_shutdown"%string; "module"%string; "Call"%string] [("T"%string,None)] (TVariant [(Variant "emergency_shutdown"%string [] 0%N []); (Variant "open_collateral_refund"%string [] 1%N []); (Variant "refund_collaterals"%string [(Field (Some "amount"%string) 59%N (Some "Balance"%string) [])] 2%N [])]) []).
Definition md_t328 : ty := (Ty ["module_homa"%string; "module"%string; "Call"%string] [("T"%string,None)] (TVariant [(Variant "mint"%string [(Field (Some "amount"%string) 59%N (Some "Balance"%string) [])] 0%N []); (Variant "request_redeem"%string [(Field (Some "amount"%string) 59%N (Some "Balance"%string) []); (Field (Some "allow_fast_match"%string) 108%N (Some "bool"%string) [])] 1%N []); (Variant "fast_match_redeems"%string [(Field (Some "redeemer_list"%string) 66%N (Some "Vec<T::AccountId>"%string) [])] 2%N []); (Variant "claim_redemption"%string [(Field (Some "redeemer"%string) 0%N (Some "T::AccountId"%string) [])] 3%N []); (Variant "update_homa_params"%string [(Field (Some "soft_bonded_cap_per_sub_account"%string) 329%N (Some "Option<Balance>"%string) []); (Field (Some "estimated_reward_rate_per_era"%string) 172%N (Some "Option<Rate>"%string) []); (Field (Some "commission_rate"%string) 172%N (Some "Option<Rate>"%string) []); (Field (Some "fast_match_fee_rate"%string) 172%N (Some "Option<Rate>"%string) [])] 4%N []); (Variant "update_bump_era_params"%string [(Field (Some "last_era_bumped_block"%string) 287%N (Some "Option<BlockNumberFor<T>>"%string) []); (Field (Some "frequency"%string) 287%N (Some "Option<BlockNumberFor<T>>"%string) [])] 5%N []); (Variant "reset_ledgers"%string [(Field (Some "updates"%string) 330%N (Some "Vec<(u16, Option<Balance>, Option<Vec<UnlockChunk>>)>"%string) [])] 6%N []); (Variant "reset_current_era"%string [(Field (Some "era_index"%string) 4%N (Some "EraIndex"%string) [])] 7%N []); (Variant "force_bump_current_era"%string [(Field (Some "bump_amount"%string) 4%N (Some "EraIndex"%string) [])] 8%N []); (Variant "fast_match_redeems_completely"%string [(Field (Some "redeemer_list"%string) 66%N (Some "Vec<T::AccountId>"%string) [])] 9%N [])]) []).
Definition md_t329 : ty := (Ty ["Option"%string] [("T"%string,(Some 6%N))] (TVariant [(Variant "None"%string [] 0%N []); (Variant "Some"%string [(Field None 6%N None [])] 1%N [])]) []).
Definition md_t330 : ty := (Ty [] [] (TSequence 331%N) []).
Definition md_t331 : ty := (Ty [] [] (TTuple [40%N; 329%N; 332%N]) []).
Definition md_t332 : ty := (Ty ["Option"%string] [("T"%string,(Some 177%N))] (TVariant [(Variant "None"%string [] 0%N []); (Variant "Some"%string [(Field None 177%N None [])] 1%N [])]) []).
Definition md_t333 : ty := (Ty ["module_xcm_interface"%string; "module"%string; "Call"%string] [("T"%string,None)] (TVariant [(Variant "update_xcm_dest_weight_and_fee"%string [(Field (Some "updates"%string) 334%N (Some "Vec<(XcmInterfaceOperation, Option<XcmWeight>, Option<Balance>)>"%string) [])] 0%N [])]) []).
Definition md_t334 : ty := (Ty [] [] (TSequence 335%N) []).
Definition md_t335 : ty := (Ty [] [] (TTuple [180%N; 215%N; 329%N]) []).
Definition md_t336 : ty := (Ty ["module_incentives"%string; "module"%string; "Call"%string] [("T"%string,None)] (TVariant [(Variant "deposit_dex_share"%string [(Field (Some "lp_currency_id"%string) 52%N (Some "CurrencyId"%string) []); (Field (Some "amount"%string) 59%N (Some "Balance"%string) [])] 0%N []); (Variant "withdraw_dex_share"%string [(Field (Some "lp_currency_id"%string) 52%N (Some "CurrencyId"%string) []); (Field (Some "amount"%string) 59%N (Some "Balance"%string) [])] 1%N []); (Variant "claim_rewards"%string [(Field (Some "pool_id"%string) 182%N (Some "PoolId"%string) [])] 2%N []); (Variant "update_incentive_rewards"%string [(Field (Some "updates"%string) 337%N (Some "Vec<(PoolId, Vec<(CurrencyId, Balance)>)>"%string) [])] 3%N []); (Variant "update_claim_reward_deduction_rates"%string [(Field (Some "updates"%string) 339%N (Some "Vec<(PoolId, Rate)>"%string) [])] 4%N [])]) []).
Definition md_t337 : ty := (Ty [] [] (TSequence 338%N) []).
Definition md_t338 : ty := (Ty [] [] (TTuple [182%N; 174%N]) []).
Definition md_t339 : ty := (Ty [] [] (TSequence 340%N) []).
Definition md_t340 : ty := (Ty [] [] (TTuple [182%N; 61%N]) []).
Definition md_t341 : ty := (Ty ["module_nft"%string; "module"%string; "Call"%string] [("T"%string,None)] (TVariant [(Variant "create_class"%string [(Field (Some "metadata"%string) 13%N (Some "CID"%string) []); (Field (Some "properties"%string) 342%N (Some "Properties"%string) []); (Field (Some "attributes"%string) 344%N (Some "Attributes"%string) [])] 0%N []); (Variant "mint"%string [(Field (Some "to"%string) 237%N (Some "<T::Lookup as StaticLookup>::Source"%string) []); (Field (Some "class_id"%string) 4%N (Some "ClassIdOf<T>"%string) []); (Field (Some "metadata"%string) 13%N (Some "CID"%string) []); (Field (Some "attributes"%string) 344%N (Some "Attributes"%string) []); (Field (Some "quantity"%string) 77%N (Some "u32"%string) [])] 1%N []); (Variant "transfer"%string [(Field (Some "to"%string) 237%N (Some "<T::Lookup as StaticLookup>::Source"%string) []); (Field (Some "token"%string) 345%N (Some "(ClassIdOf<T>, TokenIdOf<T>)"%string) [])] 2%N []); (Variant "burn"%string [(Field (Some "token"%string) 345%N (Some "(ClassIdOf<T>, TokenIdOf<T>)"%string) [])] 3%N []); (Variant "burn_with_remark"%string [(Field (Some "token"%string) 345%N (Some "(ClassIdOf<T>, TokenIdOf<T>)"%string) []); (Field (Some "remark"%string) 13%N (Some "Vec<u8>"%string) [])] 4%N []); (Variant "destroy_class"%string [(Field (Some "class_id"%string) 4%N (Some "ClassIdOf<T>"%string) []); (Field (Some "dest"%string) 237%N (Some "<T::Lookup as StaticLookup>::Source"%string) [])] 5%N []); (Variant "update_class_properties"%string [(Field (Some "class_id"%string) 4%N (Some "ClassIdOf<T>"%string) []); (Field (Some "properties"%string) 342%N (Some "Properties"%string) [])] 6%N [])]) []).
Definition md_t342 : ty := (Ty ["acala_primitives"%string; "nft"%string; "BitFlags"%string] [("T"%string,(Some 343%N))] (TComposite [(Field None 2%N (Some "ClassProperty"%string) [])]) []).
Definition md_t343 : ty := (Ty ["acala_primitives"%string; "nft"%string; "ClassProperty"%string] [] (TVariant [(Variant "Transferable"%string [] 1%N []); (Variant "Burnable"%string [] 2%N []); (Variant "Mintable"%string [] 4%N []); (Variant "ClassPropertiesMutable"%string [] 8%N [])]) []).
Definition md_t344 : ty := (Ty ["BTreeMap"%string] [("K"%string,(Some 13%N)); ("V"%string,(Some 13%N))] (TComposite [(Field None 209%N None [])]) []).
Definition md_t345 : ty := (Ty [] [] (TTuple [4%N; 11%N]) []).
Definition md_t346 : ty := (Ty ["module_asset_registry"%string; "module"%string; "Call"%string] [("T"%string,None)] (TVariant [(Variant "register_foreign_asset"%string [(Field (Some "location"%string) 124%N (Some "Box<VersionedMultiLocation>"%string) []); (Field (Some "metadata"%string) 185%N (Some "Box<AssetMetadata<BalanceOf<T>>>"%string) [])] 0%N []); (Variant "update_foreign_asset"%string [(Field (Some "foreign_asset_id"%string) 40%N (Some "ForeignAssetId"%string) []); (Field (Some "location"%string) 124%N (Some "Box<VersionedMultiLocation>"%string) []); (Field (Some "metadata"%string) 185%N (Some "Box<AssetMetadata<BalanceOf<T>>>"%string) [])] 1%N []); (Variant "register_stable_asset"%string [(Field (Some "metadata"%string) 185%N (Some "Box<AssetMetadata<BalanceOf<T>>>"%string) [])] 2%N []); (Variant "update_stable_asset"%string [(Field (Some "stable_asset_id"%string) 4%N (Some "StableAssetPoolId"%string) []); (Field (Some "metadata"%string) 185%N (Some "Box<AssetMetadata<BalanceOf<T>>>"%string) [])] 3%N []); (Variant "register_erc20_asset"%string [(Field (Some "contract"%string) 42%N (Some "EvmAddress"%string) []); (Field (Some "minimal_balance"%string) 6%N (Some "BalanceOf<T>"%string) [])] 4%N []); (Variant "update_erc20_asset"%string [(Field (Some "contract"%string) 42%N (Some "EvmAddress"%string) []); (Field (Some "metadata"%string) 185%N (Some "Box<AssetMetadata<BalanceOf<T>>>"%string) [])] 5%N []); (Variant "register_native_asset"%string [(Field (Some "currency_id"%string) 52%N (Some "CurrencyId"%string) []); (Field (Some "metadata"%string) 185%N (Some "Box<AssetMetadata<BalanceOf<T>>>"%string) [])] 6%N []); (Variant "update_native_asset"%string [(Field (Some "currency_id"%string) 52%N (Some "CurrencyId"%string) []); (Field (Some "metadata"%string) 185%N (Some "Box<AssetMetadata<BalanceOf<T>>>"%string) [])] 7%N [])]) []).
Definition md_t347 : ty := (Ty ["module_liquid_crowdloan"%string; "module"%string; "Call"%string] [("T"%string,None)] (TVariant [(Variant "redeem"%string [(Field (Some "amount"%string) 59%N (Some "Balance"%string) [])] 0%N []); (Variant "transfer_from_crowdloan_vault"%string [(Field (Some "amount"%string) 59%N (Some "Balance"%string) [])] 1%N []); (Variant "set_redeem_currency_id"%string [(Field (Some "currency_id"%string) 52%N (Some "CurrencyId"%string) [])] 2%N [])]) []).
Definition md_t348 : ty := (Ty ["module_evm"%string; "module"%string; "Call"%string] [("T"%string,None)] (TVariant [(Variant "eth_call"%string [(Field (Some "action"%string) 349%N (Some "TransactionAction"%string) []); (Field (Some "input"%string) 13%N (Some "Vec<u8>"%string) []); (Field (Some "value"%string) 59%N (Some "BalanceOf<T>"%string) []); (Field (Some "gas_limit"%string) 10%N (Some "u64"%string) []); (Field (Some "storage_limit"%string) 77%N (Some "u32"%string) []); (Field (Some "access_list"%string) 350%N (Some "Vec<AccessListItem>"%string) []); (Field (Some "valid_until"%string) 77%N (Some "BlockNumberFor<T>"%string) [])] 0%N []); (Variant "eth_call_v2"%string [(Field (Some "action"%string) 349%N (Some "TransactionAction"%string) []); (Field (Some "input"%string) 13%N (Some "Vec<u8>"%string) []); (Field (Some "value"%string) 59%N (Some "BalanceOf<T>"%string) []); (Field (Some "gas_price"%string) 10%N (Some "u64"%string) []); (Field (Some "gas_limit"%string) 10%N (Some "u64"%string) []); (Field (Some "access_list"%string) 350%N (Some "Vec<AccessListItem>"%string) [])] 15%N []); (Variant "call"%string [(Field (Some "target"%string) 42%N (Some "EvmAddress"%string) []); (Field (Some "input"%string) 13%N (Some "Vec<u8>"%string) []); (Field (Some "value"%string) 59%N (Some "BalanceOf<T>"%string) []); (Field (Some "gas_limit"%string) 10%N (Some "u64"%string) []); (Field (Some "storage_limit"%string) 77%N (Some "u32"%string) []); (Field (Some "access_list"%string) 350%N (Some "Vec<AccessListItem>"%string) [])] 1%N []); (Variant "scheduled_call"%string [(Field (Some "from"%string) 42%N (Some "EvmAddress"%string) []); (Field (Some "target"%string) 42%N (Some "EvmAddress"%string) []); (Field (Some "input"%string) 13%N (Some "Vec<u8>"%string) []); (Field (Some "value"%string) 59%N (Some "BalanceOf<T>"%string) []); (Field (Some "gas_limit"%string) 10%N (Some "u64"%string) []); (Field (Some "storage_limit"%string) 77%N (Some "u32"%string) []); (Field (Some "access_list"%string) 350%N (Some "Vec<AccessListItem>"%string) [])] 2%N []); (Variant "create"%string [(Field (Some "input"%string) 13%N (Some "Vec<u8>"%string) []); (Field (Some "value"%string) 59%N (Some "BalanceOf<T>"%string) []); (Field (Some "gas_limit"%string) 10%N (Some "u64"%string) []); (Field (Some "storage_limit"%string) 77%N (Some "u32"%string) []); (Field (Some "access_list"%string) 350%N (Some "Vec<AccessListItem>"%string) [])] 3%N []); (Variant "create2"%string [(Field (Some "input"%string) 13%N (Some "Vec<u8>"%string) []); (Field (Some "salt"%string) 12%N (Some "H256"%string) []); (Field (Some "value"%string) 59%N (Some "BalanceOf<T>"%string) []); (Field (Some "gas_limit"%string) 10%N (Some "u64"%string) []); (Field (Some "storage_limit"%string) 77%N (Some "u32"%string) []); (Field (Some "access_list"%string) 350%N (Some "Vec<AccessListItem>"%string) [])] 4%N []); (Variant "create_nft_contract"%string [(Field (Some "input"%string) 13%N (Some "Vec<u8>"%string) []); (Field (Some "value"%string) 59%N (Some "BalanceOf<T>"%string) []); (Field (Some "gas_limit"%string) 10%N (Some "u64"%string) []); (Field (Some "storage_limit"%string) 77%N (Some "u32"%string) []); (Field (Some "access_list"%string) 350%N (Some "Vec<AccessListItem>"%string) [])] 5%N []); (Variant "create_predeploy_contract"%string [(Field (Some "target"%string) 42%N (Some "EvmAddress"%string) []); (Field (Some "input"%string) 13%N (Some "Vec<u8>"%string) []); (Field (Some "value"%string) 59%N (Some "BalanceOf<T>"%string) []); (Field (Some "gas_limit"%string) 10%N (Some "u64"%string) []); (Field (Some "storage_limit"%string) 77%N (Some "u32"%string) []); (Field (Some "access_list"%string) 350%N (Some "Vec<AccessListItem>"%string) [])] 6%N []); (Variant "transfer_maintainer"%string [(Field (Some "contract"%string) 42%N (Some "EvmAddress"%string) []); (Field (Some "new_maintainer"%string) 42%N (Some "EvmAddress"%string) [])] 7%N []); (Variant "publish_contract"%string [(Field (Some "contract"%string) 42%N (Some "EvmAddress"%string) [])] 8%N []); (Variant "publish_free"%string [(Field (Some "contract"%string) 42%N (Some "EvmAddress"%string) [])] 9%N []); (Variant "enable_contract_development"%string [] 10%N []); (Variant "disable_contract_development"%string [] 11%N []); (Variant "set_code"%string [(Field (Some "contract"%string) 42%N (Some "EvmAddress"%string) []); (Field (Some "code"%string) 13%N (Some "Vec<u8>"%string) [])] 12%N []); (Variant "selfdestruct"%string [(Field (Some "contract"%string) 42%N (Some "EvmAddress"%string) [])] 13%N []); (Variant "strict_call"%string [(Field (Some "target"%string) 42%N (Some "EvmAddress"%string) []); (Field (Some "input"%string) 13%N (Some "Vec<u8>"%string) []); (Field (Some "value"%string) 59%N (Some "BalanceOf<T>"%string) []); (Field (Some "gas_limit"%string) 10%N (Some "u64"%string) []); (Field (Some "storage_limit"%string) 77%N (Some "u32"%string) []); (Field (Some "access_list"%string) 350%N (Some "Vec<AccessListItem>"%string) [])] 14%N [])]) []).
Definition md_t349 : ty := (Ty ["ethereum"%string; "transaction"%string; "TransactionAction"%string] [] (TVariant [(Variant "Call"%string [(Field None 42%N (Some "H160"%string) [])] 0%N []); (Variant "Create"%string [] 1%N [])]) []).
Definition md_t350 : ty := (Ty [] [] (TSequence 351%N) []).
Definition md_t351 : ty := (Ty ["ethereum"%string; "transaction"%string; "AccessListItem"%string] [] (TComposite [(Field (Some "address"%string) 42%N (Some "Address"%string) []); (Field (Some "storage_keys"%string) 191%N (Some "Vec<H256>"%string) [])]) []).
Definition md_t352 : ty := (Ty ["module_evm_accounts"%string; "module"%string; "Call"%string] [("T"%string,None)] (TVariant [(Variant "claim_account"%string [(Field (Some "eth_address"%string) 42%N (Some "EvmAddress"%string) []); (Field (Some "eth_signature"%string) 253%N (Some "Eip712Signature"%string) [])] 0%N []); (Variant "claim_default_account"%string [] 1%N [])]) []).
Definition md_t353 : ty := (Ty ["nutsfinance_stable_asset"%string; "pallet"%string; "Call"%string] [("T"%string,None)] (TVariant [(Variant "create_pool"%string [(Field (Some "pool_asset"%string) 52%N (Some "T::AssetId"%string) []); (Field (Some "assets"%string) 162%N (Some "Vec<T::AssetId>"%string) []); (Field (Some "precisions"%string) 163%N (Some "Vec<T::AtLeast64BitUnsigned>"%string) []); (Field (Some "mint_fee"%string) 6%N (Some "T::AtLeast64BitUnsigned"%string) []); (Field (Some "swap_fee"%string) 6%N (Some "T::AtLeast64BitUnsigned"%string) []); (Field (Some "redeem_fee"%string) 6%N (Some "T::AtLeast64BitUnsigned"%string) []); (Field (Some "initial_a"%string) 6%N (Some "T::AtLeast64BitUnsigned"%string) []); (Field (Some "fee_recipient"%string) 0%N (Some "T::AccountId"%string) []); (Field (Some "yield_recipient"%string) 0%N (Some "T::AccountId"%string) []); (Field (Some "precision"%string) 6%N (Some "T::AtLeast64BitUnsigned"%string) [])] 0%N []); (Variant "mint"%string [(Field (Some "pool_id"%string) 4%N (Some "StableAssetPoolId"%string) []); (Field (Some "amounts"%string) 163%N (Some "Vec<T::Balance>"%string) []); (Field (Some "min_mint_amount"%string) 6%N (Some "T::Balance"%string) [])] 1%N []); (Variant "swap"%string [(Field (Some "pool_id"%string) 4%N (Some "StableAssetPoolId"%string) []); (Field (Some "i"%string) 4%N (Some "PoolTokenIndex"%string) []); (Field (Some "j"%string) 4%N (Some "PoolTokenIndex"%string) []); (Field (Some "dx"%string) 6%N (Some "T::Balance"%string) []); (Field (Some "min_dy"%string) 6%N (Some "T::Balance"%string) []); (Field (Some "asset_length"%string) 4%N (Some "u32"%string) [])] 2%N []); (Variant "redeem_proportion"%string [(Field (Some "pool_id"%string) 4%N (Some "StableAssetPoolId"%string) []); (Field (Some "amount"%string) 6%N (Some "T::Balance"%string) []); (Field (Some "min_redeem_amounts"%string) 163%N (Some "Vec<T::Balance>"%string) [])] 3%N []); (Variant "redeem_single"%string [(Field (Some "pool_id"%string) 4%N (Some "StableAssetPoolId"%string) []); (Field (Some "amount"%string) 6%N (Some "T::Balance"%string) []); (Field (Some "i"%string) 4%N (Some "PoolTokenIndex"%string) []); (Field (Some "min_redeem_amount"%string) 6%N (Some "T::Balance"%string) []); (Field (Some "asset_length"%string) 4%N (Some "u32"%string) [])] 4%N []); (Variant "redeem_multi"%string [(Field (Some "pool_id"%string) 4%N (Some "StableAssetPoolId"%string) []); (Field (Some "amounts"%string) 163%N (Some "Vec<T::Balance>"%string) []); (Field (Some "max_redeem_amount"%string) 6%N (Some "T::Balance"%string) [])] 5%N []); (Variant "modify_a"%string [(Field (Some "pool_id"%string) 4%N (Some "StableAssetPoolId"%string) []); (Field (Some "a"%string) 6%N (Some "T::AtLeast64BitUnsigned"%string) []); (Field (Some "future_a_block"%string) 4%N (Some "BlockNumberFor<T>"%string) [])] 6%N []); (Variant "modify_fees"%string [(Field (Some "pool_id"%string) 4%N (Some "StableAssetPoolId"%string) []); (Field (Some "mint_fee"%string) 329%N (Some "Option<T::AtLeast64BitUnsigned>"%string) []); (Field (Some "swap_fee"%string) 329%N (Some "Option<T::AtLeast64BitUnsigned>"%string) []); (Field (Some "redeem_fee"%string) 329%N (Some "Option<T::AtLeast64BitUnsigned>"%string) [])] 7%N []); (Variant "modify_recipients"%string [(Field (Some "pool_id"%string) 4%N (Some "StableAssetPoolId"%string) []); (Field (Some "fee_recipient"%string) 141%N (Some "Option<T::AccountId>"%string) []); (Field (Some "yield_recipient"%string) 141%N (Some "Option<T::AccountId>"%string) [])] 8%N [])]) []).
Definition md_t354 : ty := (Ty ["cumulus_pallet_parachain_system"%string; "pallet"%string; "Call"%string] [("T"%string,None)] (TVariant [(Variant "set_validation_data"%string [(Field (Some "data"%string) 355%N (Some "ParachainInherentData"%string) [])] 0%N []); (Variant "sudo_send_upward_message"%string [(Field (Some "message"%string) 13%N (Some "UpwardMessage"%string) [])] 1%N []); (Variant "authorize_upgrade"%string [(Field (Some "code_hash"%string) 12%N (Some "T::Hash"%string) []); (Field (Some "check_version"%string) 108%N (Some "bool"%string) [])] 2%N []); (Variant "enact_authorized_upgrade"%string [(Field (Some "code"%string) 13%N (Some "Vec<u8>"%string) [])] 3%N [])]) []).
Definition md_t355 : ty := (Ty ["cumulus_primitives_parachain_inherent"%string; "ParachainInherentData"%string] [] (TComposite [(Field (Some "validation_data"%string) 356%N (Some "PersistedValidationData"%string) []); (Field (Some "relay_chain_state"%string) 358%N (Some "sp_trie::StorageProof"%string) []); (Field (Some "downward_messages"%string) 360%N (Some "Vec<InboundDownwardMessage>"%string) []); (Field (Some "horizontal_messages"%string) 362%N (Some "BTreeMap<ParaId, Vec<InboundHrmpMessage>>"%string) [])]) []).
Definition md_t356 : ty := (Ty ["polkadot_primitives"%string; "v5"%string; "PersistedValidationData"%string] [("H"%string,(Some 12%N)); ("N"%string,(Some 4%N))] (TComposite [(Field (Some "parent_head"%string) 357%N (Some "HeadData"%string) []); (Field (Some "relay_parent_number"%string) 4%N (Some "N"%string) []); (Field (Some "relay_parent_storage_root"%string) 12%N (Some "H"%string) []); (Field (Some "max_pov_size"%string) 4%N (Some "u32"%string) [])]) []).
Definition md_t357 : ty := (Ty ["polkadot_parachain"%string; "primitives"%string; "HeadData"%string] [] (TComposite [(Field None 13%N (Some "Vec<u8>"%string) [])]) []).
Definition md_t358 : ty := (Ty ["sp_trie"%string; "storage_proof"%string; "StorageProof"%string] [] (TComposite [(Field (Some "trie_nodes"%string) 359%N (Some "BTreeSet<Vec<u8>>"%string) [])]) []).
Definition md_t359 : ty := (Ty ["BTreeSet"%string] [("T"%string,(Some 13%N))] (TComposite [(Field None 211%N None [])]) []).
Definition md_t360 : ty := (Ty [] [] (TSequence 361%N) []).
Definition md_t361 : ty := (Ty ["polkadot_core_primitives"%string; "InboundDownwardMessage"%string] [("BlockNumber"%string,(Some 4%N))] (TComposite [(Field (Some "sent_at"%string) 4%N (Some "BlockNumber"%string) []); (Field (Some "msg"%string) 13%N (Some "DownwardMessage"%string) [])]) []).
Definition md_t362 : ty := (Ty ["BTreeMap"%string] [("K"%string,(Some 71%N)); ("V"%string,(Some 363%N))] (TComposite [(Field None 365%N None [])]) []).
Definition md_t363 : ty := (Ty [] [] (TSequence 364%N) []).
Definition md_t364 : ty := (Ty ["polkadot_core_primitives"%string; "InboundHrmpMessage"%string] [("BlockNumber"%string,(Some 4%N))] (TComposite [(Field (Some "sent_at"%string) 4%N (Some "BlockNumber"%string) []); (Field (Some "data"%string) 13%N (Some "sp_std::vec::Vec<u8>"%string) [])]) []).
Definition md_t365 : ty := (Ty [] [] (TSequence 366%N) []).
Definition md_t366 : ty := (Ty [] [] (TTuple [71%N; 363%N]) []).
Definition md_t367 : ty := (Ty ["pallet_sudo"%string; "pallet"%string; "Call"%string] [("T"%string,None)] (TVariant [(Variant "sudo"%string [(Field (Some "call"%string) 229%N (Some "Box<<T as Config>::RuntimeCall>"%string) [])] 0%N []); (Variant "sudo_unchecked_weight"%string [(Field (Some "call"%string) 229%N (Some "Box<<T as Config>::RuntimeCall>"%string) []); (Field (Some "weight"%string) 9%N (Some "Weight"%string) [])] 1%N []); (Variant "set_key"%string [(Field (Some "new"%string) 237%N (Some "AccountIdLookupOf<T>"%string) [])] 2%N []); (Variant "sudo_as"%string [(Field (Some "who"%string) 237%N (Some "AccountIdLookupOf<T>"%string) []); (Field (Some "call"%string) 229%N (Some "Box<<T as Config>::RuntimeCall>"%string) [])] 3%N [])]) []).
Definition md_t368 : ty := (Ty ["bounded_collections"%string; "bounded_vec"%string; "BoundedVec"%string] [("T"%string,(Some 2%N)); ("S"%string,None)] (TComposite [(Field None 13%N (Some "Vec<T>"%string) [])]) []).
Definition md_t369 : ty := (Ty [] [] (TSequence 226%N) []).
Definition md_t370 : ty := (Ty ["pallet_scheduler"%string; "pallet"%string; "Error"%string] [("T"%string,None)] (TVariant [(Variant "FailedToSchedule"%string [] 0%N []); (Variant "NotFound"%string [] 1%N []); (Variant "TargetBlockNumberInPast"%string [] 2%N []); (Variant "RescheduleNoChange"%string [] 3%N []); (Variant "Named"%string [] 4%N [])]) []).
Definition md_t371 : ty := (Ty ["pallet_utility"%string; "pallet"%string; "Error"%string] [("T"%string,None)] (TVariant [(Variant "TooManyCalls"%string [] 0%N [])]) []).
Definition md_t372 : ty := (Ty [] [] (TTuple [0%N; 1%N]) []).
Definition md_t373 : ty := (Ty ["pallet_multisig"%string; "Multisig"%string] [("BlockNumber"%string,(Some 4%N)); ("Balance"%string,(Some 6%N)); ("AccountId"%string,(Some 0%N)); ("MaxApprovals"%string,None)] (TComposite [(Field (Some "when"%string) 37%N (Some "Timepoint<BlockNumber>"%string) []); (Field (Some "deposit"%string) 6%N (Some "Balance"%string) []); (Field (Some "depositor"%string) 0%N (Some "AccountId"%string) []); (Field (Some "approvals"%string) 374%N (Some "BoundedVec<AccountId, MaxApprovals>"%string) [])]) []).
Definition md_t374 : ty := (Ty ["bounded_collections"%string; "bounded_vec"%string; "BoundedVec"%string] [("T"%string,(Some 0%N)); ("S"%string,None)] (TComposite [(Field None 66%N (Some "Vec<T>"%string) [])]) []).
Definition md_t375 : ty := (Ty ["pallet_multisig"%string; "pallet"%string; "Error"%string] [("T"%string,None)] (TVariant [(Variant "MinimumThreshold"%string [] 0%N []); (Variant "AlreadyApproved"%string [] 1%N []); (Variant "NoApprovalsNeeded"%string [] 2%N []); (Variant "TooFewSignatories"%string [] 3%N []); (Variant "TooManySignatories"%string [] 4%N []); (Variant "SignatoriesOutOfOrder"%string [] 5%N []); (Variant "SenderInSignatories"%string [] 6%N []); (Variant "NotFound"%string [] 7%N []); (Variant "NotOwner"%string [] 8%N []); (Variant "NoTimepoint"%string [] 9%N []); (Variant "WrongTimepoint"%string [] 10%N []); (Variant "UnexpectedTimepoint"%string [] 11%N []); (Variant "MaxWeightTooLow"%string [] 12%N []); (Variant "AlreadyStored"%string [] 13%N [])]) []).
Definition md_t376 : ty := (Ty [] [] (TTuple [377%N; 6%N]) []).
Definition md_t377 : ty := (Ty ["bounded_collections"%string; "bounded_vec"%string; "BoundedVec"%string] [("T"%string,(Some 378%N)); ("S"%string,None)] (TComposite [(Field None 379%N (Some "Vec<T>"%string) [])]) []).
Definition md_t378 : ty := (Ty ["pallet_proxy"%string; "ProxyDefinition"%string] [("AccountId"%string,(Some 0%N)); ("ProxyType"%string,(Some 39%N)); ("BlockNumber"%string,(Some 4%N))] (TComposite [(Field (Some "delegate"%string) 0%N (Some "AccountId"%string) []); (Field (Some "proxy_type"%string) 39%N (Some "ProxyType"%string) []); (Field (Some "delay"%string) 4%N (Some "BlockNumber"%string) [])]) []).
Definition md_t379 : ty := (Ty [] [] (TSequence 378%N) []).
Definition md_t380 : ty := (Ty [] [] (TTuple [381%N; 6%N]) []).
Definition md_t381 : ty := (Ty ["bounded_collections"%string; "bounded_vec"%string; "BoundedVec"%string] [("T"%string,(Some 382%N)); ("S"%string,None)] (TComposite [(Field None 383%N (Some "Vec<T>"%string) [])]) []).
Definition md_t382 : ty := (Ty ["pallet_proxy"%string; "Announcement"%string] [("AccountId"%string,(Some 0%N)); ("Hash"%string,(Some 12%N)); ("BlockNumber"%string,(Some 4%N))] (TComposite [(Field (Some "real"%string) 0%N (Some "AccountId"%string) []); (Field (Some "call_hash"%string) 12%N (Some "Hash"%string) []); (Field (Some "height"%string) 4%N (Some "BlockNumber"%string) [])]) []).
Definition md_t383 : ty := (Ty [] [] (TSequence 382%N) []).
Definition md_t384 : ty := (Ty ["pallet_proxy"%string; "pallet"%string; "Error"%string] [("T"%string,None)] (TVariant [(Variant "TooMany"%string [] 0%N []); (Variant "NotFound"%string [] 1%N []); (Variant "NotProxy"%string [] 2%N []); (Variant "Unproxyable"%string [] 3%N []); (Variant "Duplicate"%string [] 4%N []); (Variant "NoPermission"%string [] 5%N []); (Variant "Unannounced"%string [] 6%N []); (Variant "NoSelfProxy"%string [] 7%N [])]) []).
Definition md_t385 : ty := (Ty ["module_transaction_pause"%string; "module"%string; "Error"%string] [("T"%string,None)] (TVariant [(Variant "CannotPause"%string [] 0%N []); (Variant "InvalidCharacter"%string [] 1%N [])]) []).
Definition md_t386 : ty := (Ty ["pallet_preimage"%string; "RequestStatus"%string] [("AccountId"%string,(Some 0%N)); ("Balance"%string,(Some 6%N))] (TVariant [(Variant "Unrequested"%string [(Field (Some "deposit"%string) 387%N (Some "(AccountId, Balance)"%string) []); (Field (Some "len"%string) 4%N (Some "u32"%string) [])] 0%N []); (Variant "Requested"%string [(Field (Some "deposit"%string) 388%N (Some "Option<(AccountId, Balance)>"%string) []); (Field (Some "count"%string) 4%N (Some "u32"%string) []); (Field (Some "len"%string) 287%N (Some "Option<u32>"%string) [])] 1%N [])]) []).
Definition md_t387 : ty := (Ty [] [] (TTuple [0%N; 6%N]) []).
Definition md_t388 : ty := (Ty ["Option"%string] [("T"%string,(Some 387%N))] (TVariant [(Variant "None"%string [] 0%N []); (Variant "Some"%string [(Field None 387%N None [])] 1%N [])]) []).
Definition md_t389 : ty := (Ty [] [] (TTuple [12%N; 4%N]) []).
Definition md_t390 : ty := (Ty ["bounded_collections"%string; "bounded_vec"%string; "BoundedVec"%string] [("T"%string,(Some 2%N)); ("S"%string,None)] (TComposite [(Field None 13%N (Some "Vec<T>"%string) [])]) []).
Definition md_t391 : ty := (Ty ["pallet_preimage"%string; "pallet"%string; "Error"%string] [("T"%string,None)] (TVariant [(Variant "TooBig"%string [] 0%N []); (Variant "AlreadyNoted"%string [] 1%N []); (Variant "NotAuthorized"%string [] 2%N []); (Variant "NotNoted"%string [] 3%N []); (Variant "Requested"%string [] 4%N []); (Variant "NotRequested"%string [] 5%N [])]) []).
Definition md_t392 : ty := (Ty ["bounded_collections"%string; "weak_bounded_vec"%string; "WeakBoundedVec"%string] [("T"%string,(Some 393%N)); ("S"%string,None)] (TComposite [(Field None 395%N (Some "Vec<T>"%string) [])]) []).
Definition md_t393 : ty := (Ty ["pallet_balances"%string; "types"%string; "BalanceLock"%string] [("Balance"%string,(Some 6%N))] (TComposite [(Field (Some "id"%string) 55%N (Some "LockIdentifier"%string) []); (Field (Some "amount"%string) 6%N (Some "Balance"%string) []); (Field (Some "reasons"%string) 394%N (Some "Reasons"%string) [])]) []).
Definition md_t394 : ty := (Ty ["pallet_balances"%string; "types"%string; "Reasons"%string] [] (TVariant [(Variant "Fee"%string [] 0%N []); (Variant "Misc"%string [] 1%N []); (Variant "All"%string [] 2%N [])]) []).
Definition md_t395 : ty := (Ty [] [] (TSequence 393%N) []).
Definition md_t396 : ty := (Ty ["bounded_collections"%string; "bounded_vec"%string; "BoundedVec"%string] [("T"%string,(Some 397%N)); ("S"%string,None)] (TComposite [(Field None 399%N (Some "Vec<T>"%string) [])]) []).
Definition md_t397 : ty := (Ty ["pallet_balances"%string; "types"%string; "ReserveData"%string] [("ReserveIdentifier"%string,(Some 398%N)); ("Balance"%string,(Some 6%N))] (TComposite [(Field (Some "id"%string) 398%N (Some "ReserveIdentifier"%string) []); (Field (Some "amount"%string) 6%N (Some "Balance"%string) [])]) []).
Definition md_t398 : ty := (Ty ["acala_primitives"%string; "ReserveIdentifier"%string] [] (TVariant [(Variant "CollatorSelection"%string [] 0%N []); (Variant "EvmStorageDeposit"%string [] 1%N []); (Variant "EvmDeveloperDeposit"%string [] 2%N []); (Variant "Honzon"%string [] 3%N []); (Variant "Nft"%string [] 4%N []); (Variant "TransactionPayment"%string [] 5%N []); (Variant "TransactionPaymentDeposit"%string [] 6%N []); (Variant "Count"%string [] 7%N [])]) []).
Definition md_t399 : ty := (Ty [] [] (TSequence 397%N) []).
Definition md_t400 : ty := (Ty ["bounded_collections"%string; "bounded_vec"%string; "BoundedVec"%string] [("T"%string,(Some 401%N)); ("S"%string,None)] (TComposite [(Field None 402%N (Some "Vec<T>"%string) [])]) []).
Definition md_t401 : ty := (Ty ["pallet_balances"%string; "types"%string; "IdAmount"%string] [("Id"%string,(Some 398%N)); ("Balance"%string,(Some 6%N))] (TComposite [(Field (Some "id"%string) 398%N (Some "Id"%string) []); (Field (Some "amount"%string) 6%N (Some "Balance"%string) [])]) []).
Definition md_t402 : ty := (Ty [] [] (TSequence 401%N) []).
Definition md_t403 : ty := (Ty ["bounded_collections"%string; "bounded_vec"%string; "BoundedVec"%string] [("T"%string,(Some 404%N)); ("S"%string,None)] (TComposite [(Field None 405%N (Some "Vec<T>"%string) [])]) []).
Definition md_t404 : ty := (Ty ["pallet_balances"%string; "types"%string; "IdAmount"%string] [("Id"%string,(Some 34%N)); ("Balance"%string,(Some 6%N))] (TComposite [(Field (Some "id"%string) 34%N (Some "Id"%string) []); (Field (Some "amount"%string) 6%N (Some "Balance"%string) [])]) []).
Definition md_t405 : ty := (Ty [] [] (TSequence 404%N) []).
Definition md_t406 : ty := (Ty ["pallet_balances"%string; "pallet"%string; "Error"%string] [("T"%string,None); ("I"%string,None)] (TVariant [(Variant "VestingBalance"%string [] 0%N []); (Variant "LiquidityRestrictions"%string [] 1%N []); (Variant "InsufficientBalance"%string [] 2%N []); (Variant "ExistentialDeposit"%string [] 3%N []); (Variant "Expendability"%string [] 4%N []); (Variant "ExistingVestingSchedule"%string [] 5%N []); (Variant "DeadAccount"%string [] 6%N []); (Variant "TooManyReserves"%string [] 7%N []); (Variant "TooManyHolds"%string [] 8%N []); (Variant "TooManyFreezes"%string [] 9%N [])]) []).
Definition md_t407 : ty := (Ty [] [] (TTuple [0%N; 52%N]) []).
Definition md_t408 : ty := (Ty ["bounded_collections"%string; "bounded_vec"%string; "BoundedVec"%string] [("T"%string,(Some 409%N)); ("S"%string,None)] (TComposite [(Field None 410%N (Some "Vec<T>"%string) [])]) []).
Definition md_t409 : ty := (Ty ["orml_tokens"%string; "BalanceLock"%string] [("Balance"%string,(Some 6%N))] (TComposite [(Field (Some "id"%string) 55%N (Some "LockIdentifier"%string) []); (Field (Some "amount"%string) 6%N (Some "Balance"%string) [])]) []).
Definition md_t410 : ty := (Ty [] [] (TSequence 409%N) []).
Definition md_t411 : ty := (Ty ["orml_tokens"%string; "AccountData"%string] [("Balance"%string,(Some 6%N))] (TComposite [(Field (Some "free"%string) 6%N (Some "Balance"%string) []); (Field (Some "reserved"%string) 6%N (Some "Balance"%string) []); (Field (Some "frozen"%string) 6%N (Some "Balance"%string) [])]) []).
Definition md_t412 : ty := (Ty ["bounded_collections"%string; "bounded_vec"%string; "BoundedVec"%string] [("T"%string,(Some 413%N)); ("S"%string,None)] (TComposite [(Field None 414%N (Some "Vec<T>"%string) [])]) []).
Definition md_t413 : ty := (Ty ["orml_tokens"%string; "ReserveData"%string] [("ReserveIdentifier"%string,(Some 398%N)); ("Balance"%string,(Some 6%N))] (TComposite [(Field (Some "id"%string) 398%N (Some "ReserveIdentifier"%string) []); (Field (Some "amount"%string) 6%N (Some "Balance"%string) [])]) []).
Definition md_t414 : ty := (Ty [] [] (TSequence 413%N) []).
Definition md_t415 : ty := (Ty ["orml_tokens"%string; "module"%string; "Error"%string] [("T"%string,None)] (TVariant [(Variant "BalanceTooLow"%string [] 0%N []); (Variant "AmountIntoBalanceFailed"%string [] 1%N []); (Variant "LiquidityRestrictions"%string [] 2%N []); (Variant "MaxLocksExceeded"%string [] 3%N []); (Variant "KeepAlive"%string [] 4%N []); (Variant "ExistentialDeposit"%string [] 5%N []); (Variant "DeadAccount"%string [] 6%N []); (Variant "TooManyReserves"%string [] 7%N [])]) []).
Definition md_t416 : ty := (Ty ["module_currencies"%string; "module"%string; "Error"%string] [("T"%string,None)] (TVariant [(Variant "AmountIntoBalanceFailed"%string [] 0%N []); (Variant "BalanceTooLow"%string [] 1%N []); (Variant "Erc20InvalidOperation"%string [] 2%N []); (Variant "EvmAccountNotFound"%string [] 3%N []); (Variant "RealOriginNotFound"%string [] 4%N []); (Variant "DepositFailed"%string [] 5%N [])]) []).
Definition md_t417 : ty := (Ty ["bounded_collections"%string; "bounded_vec"%string; "BoundedVec"%string] [("T"%string,(Some 58%N)); ("S"%string,None)] (TComposite [(Field None 245%N (Some "Vec<T>"%string) [])]) []).
Definition md_t418 : ty := (Ty ["orml_vesting"%string; "module"%string; "Error"%string] [("T"%string,None)] (TVariant [(Variant "ZeroVestingPeriod"%string [] 0%N []); (Variant "ZeroVestingPeriodCount"%string [] 1%N []); (Variant "InsufficientBalanceToLock"%string [] 2%N []); (Variant "TooManyVestingSchedules"%string [] 3%N []); (Variant "AmountLow"%string [] 4%N []); (Variant "MaxVestingSchedulesExceeded"%string [] 5%N [])]) []).
Definition md_t419 : ty := (Ty ["bounded_collections"%string; "bounded_vec"%string; "BoundedVec"%string] [("T"%string,(Some 52%N)); ("S"%string,None)] (TComposite [(Field None 162%N (Some "Vec<T>"%string) [])]) []).
Definition md_t420 : ty := (Ty ["frame_support"%string; "PalletId"%string] [] (TComposite [(Field None 55%N (Some "[u8; 8]"%string) [])]) []).
Definition md_t421 : ty := (Ty ["sp_arithmetic"%string; "per_things"%string; "Percent"%string] [] (TComposite [(Field None 2%N (Some "u8"%string) [])]) []).
Definition md_t422 : ty := (Ty ["module_transaction_payment"%string; "module"%string; "Error"%string] [("T"%string,None)] (TVariant [(Variant "InvalidSwapPath"%string [] 0%N []); (Variant "InvalidBalance"%string [] 1%N []); (Variant "InvalidRate"%string [] 2%N []); (Variant "InvalidToken"%string [] 3%N []); (Variant "DexNotAvailable"%string [] 4%N []); (Variant "ChargeFeePoolAlreadyExisted"%string [] 5%N [])]) []).
Definition md_t423 : ty := (Ty ["pallet_treasury"%string; "Proposal"%string] [("AccountId"%string,(Some 0%N)); ("Balance"%string,(Some 6%N))] (TComposite [(Field (Some "proposer"%string) 0%N (Some "AccountId"%string) []); (Field (Some "value"%string) 6%N (Some "Balance"%string) []); (Field (Some "beneficiary"%string) 0%N (Some "AccountId"%string) []); (Field (Some "bond"%string) 6%N (Some "Balance"%string) [])]) []).
Definition md_t424 : ty := (Ty ["bounded_collections"%string; "bounded_vec"%string; "BoundedVec"%string] [("T"%string,(Some 4%N)); ("S"%string,None)] (TComposite [(Field None 425%N (Some "Vec<T>"%string) [])]) []).
Definition md_t425 : ty := (Ty [] [] (TSequence 4%N) []).
Definition md_t426 : ty := (Ty ["sp_arithmetic"%string; "per_things"%string; "Permill"%string] [] (TComposite [(Field None 4%N (Some "u32"%string) [])]) []).
Definition md_t427 : ty := (Ty ["pallet_treasury"%string; "pallet"%string; "Error"%string] [("T"%string,None); ("I"%string,None)] (TVariant [(Variant "InsufficientProposersBalance"%string [] 0%N []); (Variant "InvalidIndex"%string [] 1%N []); (Variant "TooManyApprovals"%string [] 2%N []); (Variant "InsufficientPermission"%string [] 3%N []); (Variant "ProposalNotApproved"%string [] 4%N [])]) []).
Definition md_t428 : ty := (Ty ["pallet_bounties"%string; "Bounty"%string] [("AccountId"%string,(Some 0%N)); ("Balance"%string,(Some 6%N)); ("BlockNumber"%string,(Some 4%N))] (TComposite [(Field (Some "proposer"%string) 0%N (Some "AccountId"%string) []); (Field (Some "value"%string) 6%N (Some "Balance"%string) []); (Field (Some "fee"%string) 6%N (Some "Balance"%string) []); (Field (Some "curator_deposit"%string) 6%N (Some "Balance"%string) []); (Field (Some "bond"%string) 6%N (Some "Balance"%string) []); (Field (Some "status"%string) 429%N (Some "BountyStatus<AccountId, BlockNumber>"%string) [])]) []).
Definition md_t429 : ty := (Ty ["pallet_bounties"%string; "BountyStatus"%string] [("AccountId"%string,(Some 0%N)); ("BlockNumber"%string,(Some 4%N))] (TVariant [(Variant "Proposed"%string [] 0%N []); (Variant "Approved"%string [] 1%N []); (Variant "Funded"%string [] 2%N []); (Variant "CuratorProposed"%string [(Field (Some "curator"%string) 0%N (Some "AccountId"%string) [])] 3%N []); (Variant "Active"%string [(Field (Some "curator"%string) 0%N (Some "AccountId"%string) []); (Field (Some "update_due"%string) 4%N (Some "BlockNumber"%string) [])] 4%N []); (Variant "PendingPayout"%string [(Field (Some "curator"%string) 0%N (Some "AccountId"%string) []); (Field (Some "beneficiary"%string) 0%N (Some "AccountId"%string) []); (Field (Some "unlock_at"%string) 4%N (Some "BlockNumber"%string) [])] 5%N [])]) []).
Definition md_t430 : ty := (Ty ["bounded_collections"%string; "bounded_vec"%string; "BoundedVec"%string] [("T"%string,(Some 2%N)); ("S"%string,None)] (TComposite [(Field None 13%N (Some "Vec<T>"%string) [])]) []).
Definition md_t431 : ty := (Ty ["pallet_bounties"%string; "pallet"%string; "Error"%string] [("T"%string,None); ("I"%string,None)] (TVariant [(Variant "InsufficientProposersBalance"%string [] 0%N []); (Variant "InvalidIndex"%string [] 1%N []); (Variant "ReasonTooBig"%string [] 2%N []); (Variant "UnexpectedStatus"%string [] 3%N []); (Variant "RequireCurator"%string [] 4%N []); (Variant "InvalidValue"%string [] 5%N []); (Variant "InvalidFee"%string [] 6%N []); (Variant "PendingPayout"%string [] 7%N []); (Variant "Premature"%string [] 8%N []); (Variant "HasActiveChildBounty"%string [] 9%N []); (Variant "TooManyQueued"%string [] 10%N [])]) []).
Definition md_t432 : ty := (Ty ["pallet_tips"%string; "OpenTip"%string] [("AccountId"%string,(Some 0%N)); ("Balance"%string,(Some 6%N)); ("BlockNumber"%string,(Some 4%N)); ("Hash"%string,(Some 12%N))] (TComposite [(Field (Some "reason"%string) 12%N (Some "Hash"%string) []); (Field (Some "who"%string) 0%N (Some "AccountId"%string) []); (Field (Some "finder"%string) 0%N (Some "AccountId"%string) []); (Field (Some "deposit"%string) 6%N (Some "Balance"%string) []); (Field (Some "closes"%string) 287%N (Some "Option<BlockNumber>"%string) []); (Field (Some "tips"%string) 433%N (Some "Vec<(AccountId, Balance)>"%string) []); (Field (Some "finders_fee"%string) 108%N (Some "bool"%string) [])]) []).
Definition md_t433 : ty := (Ty [] [] (TSequence 387%N) []).
Definition md_t434 : ty := (Ty ["pallet_tips"%string; "pallet"%string; "Error"%string] [("T"%string,None); ("I"%string,None)] (TVariant [(Variant "ReasonTooBig"%string [] 0%N []); (Variant "AlreadyKnown"%string [] 1%N []); (Variant "UnknownTip"%string [] 2%N []); (Variant "NotFinder"%string [] 3%N []); (Variant "StillOpen"%string [] 4%N []); (Variant "Premature"%string [] 5%N [])]) []).
Definition md_t435 : ty := (Ty ["bounded_collections"%string; "bounded_vec"%string; "BoundedVec"%string] [("T"%string,(Some 0%N)); ("S"%string,None)] (TComposite [(Field None 66%N (Some "Vec<T>"%string) [])]) []).
Definition md_t436 : ty := (Ty ["bounded_collections"%string; "bounded_btree_set"%string; "BoundedBTreeSet"%string] [("T"%string,(Some 0%N)); ("S"%string,None)] (TComposite [(Field None 437%N (Some "BTreeSet<T>"%string) [])]) []).
Definition md_t437 : ty := (Ty ["BTreeSet"%string] [("T"%string,(Some 0%N))] (TComposite [(Field None 66%N None [])]) []).
Definition md_t438 : ty := (Ty ["module_collator_selection"%string; "pallet"%string; "Error"%string] [("T"%string,None)] (TVariant [(Variant "MaxCandidatesExceeded"%string [] 0%N []); (Variant "BelowCandidatesMin"%string [] 1%N []); (Variant "StillLocked"%string [] 2%N []); (Variant "Unknown"%string [] 3%N []); (Variant "Permission"%string [] 4%N []); (Variant "AlreadyCandidate"%string [] 5%N []); (Variant "NotCandidate"%string [] 6%N []); (Variant "NotNonCandidate"%string [] 7%N []); (Variant "NothingToWithdraw"%string [] 8%N []); (Variant "RequireSessionKey"%string [] 9%N []); (Variant "AlreadyInvulnerable"%string [] 10%N []); (Variant "InvalidProof"%string [] 11%N []); (Variant "MaxInvulnerablesExceeded"%string [] 12%N [])]) []).
Definition md_t439 : ty := (Ty [] [] (TSequence 440%N) []).
Definition md_t440 : ty := (Ty [] [] (TTuple [0%N; 261%N]) []).
Definition md_t441 : ty := (Ty [] [] (TTuple [442%N; 13%N]) []).
Definition md_t442 : ty := (Ty ["sp_core"%string; "crypto"%string; "KeyTypeId"%string] [] (TComposite [(Field None 17%N (Some "[u8; 4]"%string) [])]) []).
Definition md_t443 : ty := (Ty ["pallet_session"%string; "pallet"%string; "Error"%string] [("T"%string,None)] (TVariant [(Variant "InvalidProof"%string [] 0%N []); (Variant "NoAssociatedValidatorId"%string [] 1%N []); (Variant "DuplicatedKey"%string [] 2%N []); (Variant "NoKeys"%string [] 3%N []); (Variant "NoAccount"%string [] 4%N [])]) []).
Definition md_t444 : ty := (Ty ["bounded_collections"%string; "bounded_vec"%string; "BoundedVec"%string] [("T"%string,(Some 262%N)); ("S"%string,None)] (TComposite [(Field None 445%N (Some "Vec<T>"%string) [])]) []).
Definition md_t445 : ty := (Ty [] [] (TSequence 262%N) []).
Definition md_t446 : ty := (Ty ["sp_consensus_slots"%string; "Slot"%string] [] (TComposite [(Field None 11%N (Some "u64"%string) [])]) []).
Definition md_t447 : ty := (Ty ["module_session_manager"%string; "module"%string; "Error"%string] [("T"%string,None)] (TVariant [(Variant "InvalidSession"%string [] 0%N []); (Variant "InvalidDuration"%string [] 1%N []); (Variant "EstimateNextSessionFailed"%string [] 2%N [])]) []).
Definition md_t448 : ty := (Ty [] [] (TSequence 449%N) []).
Definition md_t449 : ty := (Ty ["cumulus_pallet_xcmp_queue"%string; "InboundChannelDetails"%string] [] (TComposite [(Field (Some "sender"%string) 71%N (Some "ParaId"%string) []); (Field (Some "state"%string) 450%N (Some "InboundState"%string) []); (Field (Some "message_metadata"%string) 451%N (Some "Vec<(RelayBlockNumber, XcmpMessageFormat)>"%string) [])]) []).
Definition md_t450 : ty := (Ty ["cumulus_pallet_xcmp_queue"%string; "InboundState"%string] [] (TVariant [(Variant "Ok"%string [] 0%N []); (Variant "Suspended"%string [] 1%N [])]) []).
Definition md_t451 : ty := (Ty [] [] (TSequence 452%N) []).
Definition md_t452 : ty := (Ty [] [] (TTuple [4%N; 453%N]) []).
Definition md_t453 : ty := (Ty ["polkadot_parachain"%string; "primitives"%string; "XcmpMessageFormat"%string] [] (TVariant [(Variant "ConcatenatedVersionedXcm"%string [] 0%N []); (Variant "ConcatenatedEncodedBlob"%string [] 1%N []); (Variant "Signals"%string [] 2%N [])]) []).
Definition md_t454 : ty := (Ty [] [] (TTuple [71%N; 4%N]) []).
Definition md_t455 : ty := (Ty [] [] (TSequence 456%N) []).
Definition md_t456 : ty := (Ty ["cumulus_pallet_xcmp_queue"%string; "OutboundChannelDetails"%string] [] (TComposite [(Field (Some "recipient"%string) 71%N (Some "ParaId"%string) []); (Field (Some "state"%string) 457%N (Some "OutboundState"%string) []); (Field (Some "signals_exist"%string) 108%N (Some "bool"%string) []); (Field (Some "first_index"%string) 40%N (Some "u16"%string) []); (Field (Some "last_index"%string) 40%N (Some "u16"%string) [])]) []).
Definition md_t457 : ty := (Ty ["cumulus_pallet_xcmp_queue"%string; "OutboundState"%string] [] (TVariant [(Variant "Ok"%string [] 0%N []); (Variant "Suspended"%string [] 1%N [])]) []).
Definition md_t458 : ty := (Ty [] [] (TTuple [71%N; 40%N]) []).
Definition md_t459 : ty := (Ty ["cumulus_pallet_xcmp_queue"%string; "QueueConfigData"%string] [] (TComposite [(Field (Some "suspend_threshold"%string) 4%N (Some "u32"%string) []); (Field (Some "drop_threshold"%string) 4%N (Some "u32"%string) []); (Field (Some "resume_threshold"%string) 4%N (Some "u32"%string) []); (Field (Some "threshold_weight"%string) 9%N (Some "Weight"%string) []); (Field (Some "weight_restrict_decay"%string) 9%N (Some "Weight"%string) []); (Field (Some "xcmp_max_individual_weight"%string) 9%N (Some "Weight"%string) [])]) []).
Definition md_t460 : ty := (Ty [] [] (TTuple [71%N; 4%N; 13%N]) []).
Definition md_t461 : ty := (Ty ["cumulus_pallet_xcmp_queue"%string; "pallet"%string; "Error"%string] [("T"%string,None)] (TVariant [(Variant "FailedToSend"%string [] 0%N []); (Variant "BadXcmOrigin"%string [] 1%N []); (Variant "BadXcm"%string [] 2%N []); (Variant "BadOverweightIndex"%string [] 3%N []); (Variant "WeightOverLimit"%string [] 4%N [])]) []).
Definition md_t462 : ty := (Ty ["pallet_xcm"%string; "pallet"%string; "QueryStatus"%string] [("BlockNumber"%string,(Some 4%N))] (TVariant [(Variant "Pending"%string [(Field (Some "responder"%string) 124%N (Some "VersionedMultiLocation"%string) []); (Field (Some "maybe_match_querier"%string) 463%N (Some "Option<VersionedMultiLocation>"%string) []); (Field (Some "maybe_notify"%string) 464%N (Some "Option<(u8, u8)>"%string) []); (Field (Some "timeout"%string) 4%N (Some "BlockNumber"%string) [])] 0%N []); (Variant "VersionNotifier"%string [(Field (Some "origin"%string) 124%N (Some "VersionedMultiLocation"%string) []); (Field (Some "is_active"%string) 108%N (Some "bool"%string) [])] 1%N []); (Variant "Ready"%string [(Field (Some "response"%string) 466%N (Some "VersionedResponse"%string) []); (Field (Some "at"%string) 4%N (Some "BlockNumber"%string) [])] 2%N [])]) []).
Definition md_t463 : ty := (Ty ["Option"%string] [("T"%string,(Some 124%N))] (TVariant [(Variant "None"%string [] 0%N []); (Variant "Some"%string [(Field None 124%N None [])] 1%N [])]) []).
Definition md_t464 : ty := (Ty ["Option"%string] [("T"%string,(Some 465%N))] (TVariant [(Variant "None"%string [] 0%N []); (Variant "Some"%string [(Field None 465%N None [])] 1%N [])]) []).
Definition md_t465 : ty := (Ty [] [] (TTuple [2%N; 2%N]) []).
Definition md_t466 : ty := (Ty ["xcm"%string; "VersionedResponse"%string] [] (TVariant [(Variant "V2"%string [(Field None 271%N (Some "v2::Response"%string) [])] 2%N []); (Variant "V3"%string [(Field None 92%N (Some "v3::Response"%string) [])] 3%N [])]) []).
Definition md_t467 : ty := (Ty [] [] (TTuple [4%N; 124%N]) []).
Definition md_t468 : ty := (Ty [] [] (TTuple [11%N; 9%N; 4%N]) []).
Definition md_t469 : ty := (Ty ["bounded_collections"%string; "bounded_vec"%string; "BoundedVec"%string] [("T"%string,(Some 470%N)); ("S"%string,None)] (TComposite [(Field None 471%N (Some "Vec<T>"%string) [])]) []).
Definition md_t470 : ty := (Ty [] [] (TTuple [124%N; 4%N]) []).
Definition md_t471 : ty := (Ty [] [] (TSequence 470%N) []).
Definition md_t472 : ty := (Ty ["pallet_xcm"%string; "pallet"%string; "VersionMigrationStage"%string] [] (TVariant [(Variant "MigrateSupportedVersion"%string [] 0%N []); (Variant "MigrateVersionNotifiers"%string [] 1%N []); (Variant "NotifyCurrentTargets"%string [(Field None 473%N (Some "Option<Vec<u8>>"%string) [])] 2%N []); (Variant "MigrateAndNotifyOldTargets"%string [] 3%N [])]) []).
Definition md_t473 : ty := (Ty ["Option"%string] [("T"%string,(Some 13%N))] (TVariant [(Variant "None"%string [] 0%N []); (Variant "Some"%string [(Field None 13%N None [])] 1%N [])]) []).
Definition md_t474 : ty := (Ty [] [] (TTuple [4%N; 0%N; 475%N]) []).
Definition md_t475 : ty := (Ty ["xcm"%string; "VersionedAssetId"%string] [] (TVariant [(Variant "V3"%string [(Field None 88%N (Some "v3::AssetId"%string) [])] 3%N [])]) []).
Definition md_t476 : ty := (Ty ["pallet_xcm"%string; "pallet"%string; "RemoteLockedFungibleRecord"%string] [("ConsumerIdentifier"%string,(Some 34%N)); ("MaxConsumers"%string,None)] (TComposite [(Field (Some "amount"%string) 6%N (Some "u128"%string) []); (Field (Some "owner"%string) 124%N (Some "VersionedMultiLocation"%string) []); (Field (Some "locker"%string) 124%N (Some "VersionedMultiLocation"%string) []); (Field (Some "consumers"%string) 477%N (Some "BoundedVec<(ConsumerIdentifier, u128), MaxConsumers>"%string) [])]) []).
Definition md_t477 : ty := (Ty ["bounded_collections"%string; "bounded_vec"%string; "BoundedVec"%string] [("T"%string,(Some 478%N)); ("S"%string,None)] (TComposite [(Field None 479%N (Some "Vec<T>"%string) [])]) []).
Definition md_t478 : ty := (Ty [] [] (TTuple [34%N; 6%N]) []).
Definition md_t479 : ty := (Ty [] [] (TSequence 478%N) []).
Definition md_t480 : ty := (Ty ["bounded_collections"%string; "bounded_vec"%string; "BoundedVec"%string] [("T"%string,(Some 481%N)); ("S"%string,None)] (TComposite [(Field None 482%N (Some "Vec<T>"%string) [])]) []).
Definition md_t481 : ty := (Ty [] [] (TTuple [6%N; 124%N]) []).
Definition md_t482 : ty := (Ty [] [] (TSequence 481%N) []).
Definition md_t483 : ty := (Ty ["pallet_xcm"%string; "pallet"%string; "Error"%string] [("T"%string,None)] (TVariant [(Variant "Unreachable"%string [] 0%N []); (Variant "SendFailure"%string [] 1%N []); (Variant "Filtered"%string [] 2%N []); (Variant "UnweighableMessage"%string [] 3%N []); (Variant "DestinationNotInvertible"%string [] 4%N []); (Variant "Empty"%string [] 5%N []); (Variant "CannotReanchor"%string [] 6%N []); (Variant "TooManyAssets"%string [] 7%N []); (Variant "InvalidOrigin"%string [] 8%N []); (Variant "BadVersion"%string [] 9%N []); (Variant "BadLocation"%string [] 10%N []); (Variant "NoSubscription"%string [] 11%N []); (Variant "AlreadySubscribed"%string [] 12%N []); (Variant "InvalidAsset"%string [] 13%N []); (Variant "LowBalance"%string [] 14%N []); (Variant "TooManyLocks"%string [] 15%N []); (Variant "AccountNotSovereign"%string [] 16%N []); (Variant "FeesNotMet"%string [] 17%N []); (Variant "LockNotFound"%string [] 18%N []); (Variant "InUse"%string [] 19%N [])]) []).
Definition md_t484 : ty := (Ty ["cumulus_pallet_xcm"%string; "pallet"%string; "Error"%string] [("T"%string,None)] (TVariant []) []).
Definition md_t485 : ty := (Ty ["cumulus_pallet_dmp_queue"%string; "ConfigData"%string] [] (TComposite [(Field (Some "max_individual"%string) 9%N (Some "Weight"%string) [])]) []).
Definition md_t486 : ty := (Ty ["cumulus_pallet_dmp_queue"%string; "PageIndexData"%string] [] (TComposite [(Field (Some "begin_used"%string) 4%N (Some "PageCounter"%string) []); (Field (Some "end_used"%string) 4%N (Some "PageCounter"%string) []); (Field (Some "overweight_count"%string) 11%N (Some "OverweightIndex"%string) [])]) []).
Definition md_t487 : ty := (Ty [] [] (TSequence 488%N) []).
Definition md_t488 : ty := (Ty [] [] (TTuple [4%N; 13%N]) []).
Definition md_t489 : ty := (Ty ["cumulus_pallet_dmp_queue"%string; "pallet"%string; "Error"%string] [("T"%string,None)] (TVariant [(Variant "Unknown"%string [] 0%N []); (Variant "OverLimit"%string [] 1%N [])]) []).
Definition md_t490 : ty := (Ty ["orml_xtokens"%string; "module"%string; "Error"%string] [("T"%string,None)] (TVariant [(Variant "AssetHasNoReserve"%string [] 0%N []); (Variant "NotCrossChainTransfer"%string [] 1%N []); (Variant "InvalidDest"%string [] 2%N []); (Variant "NotCrossChainTransferableCurrency"%string [] 3%N []); (Variant "UnweighableMessage"%string [] 4%N []); (Variant "XcmExecutionFailed"%string [] 5%N []); (Variant "CannotReanchor"%string [] 6%N []); (Variant "InvalidAncestry"%string [] 7%N []); (Variant "InvalidAsset"%string [] 8%N []); (Variant "DestinationNotInvertible"%string [] 9%N []); (Variant "BadVersion"%string [] 10%N []); (Variant "DistinctReserveForAssetAndFee"%string [] 11%N []); (Variant "ZeroFee"%string [] 12%N []); (Variant "ZeroAmount"%string [] 13%N []); (Variant "TooManyAssetsBeingSent"%string [] 14%N []); (Variant "AssetIndexNonExistent"%string [] 15%N []); (Variant "FeeNotEnough"%string [] 16%N []); (Variant "NotSupportedMultiLocation"%string [] 17%N []); (Variant "MinXcmFeeNotDefined"%string [] 18%N [])]) []).
Definition md_t491 : ty := (Ty [] [] (TTuple [74%N; 74%N]) []).
Definition md_t492 : ty := (Ty [] [] (TTuple [74%N; 13%N]) []).
Definition md_t493 : ty := (Ty ["orml_unknown_tokens"%string; "module"%string; "Error"%string] [("T"%string,None)] (TVariant [(Variant "BalanceTooLow"%string [] 0%N []); (Variant "BalanceOverflow"%string [] 1%N []); (Variant "UnhandledAsset"%string [] 2%N [])]) []).
Definition md_t494 : ty := (Ty ["orml_xcm"%string; "module"%string; "Error"%string] [("T"%string,None)] (TVariant [(Variant "Unreachable"%string [] 0%N []); (Variant "SendFailure"%string [] 1%N []); (Variant "BadVersion"%string [] 2%N [])]) []).
Definition md_t495 : ty := (Ty [] [] (TTuple [229%N; 141%N]) []).
Definition md_t496 : ty := (Ty ["orml_authority"%string; "module"%string; "Error"%string] [("T"%string,None)] (TVariant [(Variant "FailedToSchedule"%string [] 0%N []); (Variant "FailedToCancel"%string [] 1%N []); (Variant "FailedToFastTrack"%string [] 2%N []); (Variant "FailedToDelay"%string [] 3%N []); (Variant "CallNotAuthorized"%string [] 4%N []); (Variant "TriggerCallNotPermitted"%string [] 5%N []); (Variant "WrongCallWeightBound"%string [] 6%N [])]) []).
Definition md_t497 : ty := (Ty ["bounded_collections"%string; "bounded_vec"%string; "BoundedVec"%string] [("T"%string,(Some 12%N)); ("S"%string,None)] (TComposite [(Field None 191%N (Some "Vec<T>"%string) [])]) []).
Definition md_t498 : ty := (Ty ["pallet_collective"%string; "Votes"%string] [("AccountId"%string,(Some 0%N)); ("BlockNumber"%string,(Some 4%N))] (TComposite [(Field (Some "index"%string) 4%N (Some "ProposalIndex"%string) []); (Field (Some "threshold"%string) 4%N (Some "MemberCount"%string) []); (Field (Some "ayes"%string) 66%N (Some "Vec<AccountId>"%string) []); (Field (Some "nays"%string) 66%N (Some "Vec<AccountId>"%string) []); (Field (Some "end"%string) 4%N (Some "BlockNumber"%string) [])]) []).
Definition md_t499 : ty := (Ty ["pallet_collective"%string; "pallet"%string; "Error"%string] [("T"%string,None); ("I"%string,None)] (TVariant [(Variant "NotMember"%string [] 0%N []); (Variant "DuplicateProposal"%string [] 1%N []); (Variant "ProposalMissing"%string [] 2%N []); (Variant "WrongIndex"%string [] 3%N []); (Variant "DuplicateVote"%string [] 4%N []); (Variant "AlreadyInitialized"%string [] 5%N []); (Variant "TooEarly"%string [] 6%N []); (Variant "TooManyProposals"%string [] 7%N []); (Variant "WrongProposalWeight"%string [] 8%N []); (Variant "WrongProposalLength"%string [] 9%N [])]) []).
Definition md_t500 : ty := (Ty ["bounded_collections"%string; "bounded_vec"%string; "BoundedVec"%string] [("T"%string,(Some 0%N)); ("S"%string,None)] (TComposite [(Field None 66%N (Some "Vec<T>"%string) [])]) []).
Definition md_t501 : ty := (Ty ["pallet_membership"%string; "pallet"%string; "Error"%string] [("T"%string,None); ("I"%string,None)] (TVariant [(Variant "AlreadyMember"%string [] 0%N []); (Variant "NotMember"%string [] 1%N []); (Variant "TooManyMembers"%string [] 2%N [])]) []).
Definition md_t502 : ty := (Ty ["pallet_collective"%string; "pallet"%string; "Error"%string] [("T"%string,None); ("I"%string,None)] (TVariant [(Variant "NotMember"%string [] 0%N []); (Variant "DuplicateProposal"%string [] 1%N []); (Variant "ProposalMissing"%string [] 2%N []); (Variant "WrongIndex"%string [] 3%N []); (Variant "DuplicateVote"%string [] 4%N []); (Variant "AlreadyInitialized"%string [] 5%N []); (Variant "TooEarly"%string [] 6%N []); (Variant "TooManyProposals"%string [] 7%N []); (Variant "WrongProposalWeight"%string [] 8%N []); (Variant "WrongProposalLength"%string [] 9%N [])]) []).
Definition md_t503 : ty := (Ty ["pallet_membership"%string; "pallet"%string; "Error"%string] [("T"%string,None); ("I"%string,None)] (TVariant [(Variant "AlreadyMember"%string [] 0%N []); (Variant "NotMember"%string [] 1%N []); (Variant "TooManyMembers"%string [] 2%N [])]) []).
Definition md_t504 : ty := (Ty ["pallet_collective"%string; "pallet"%string; "Error"%string] [("T"%string,None); ("I"%string,None)] (TVariant [(Variant "NotMember"%string [] 0%N []); (Variant "DuplicateProposal"%string [] 1%N []); (Variant "ProposalMissing"%string [] 2%N []); (Variant "WrongIndex"%string [] 3%N []); (Variant "DuplicateVote"%string [] 4%N []); (Variant "AlreadyInitialized"%string [] 5%N []); (Variant "TooEarly"%string [] 6%N []); (Variant "TooManyProposals"%string [] 7%N []); (Variant "WrongProposalWeight"%string [] 8%N []); (Variant "WrongProposalLength"%string [] 9%N [])]) []).
Definition md_t505 : ty := (Ty ["pallet_membership"%string; "pallet"%string; "Error"%string] [("T"%string,None); ("I"%string,None)] (TVariant [(Variant "AlreadyMember"%string [] 0%N []); (Variant "NotMember"%string [] 1%N []); (Variant "TooManyMembers"%string [] 2%N [])]) []).
Definition md_t506 : ty := (Ty ["pallet_collective"%string; "pallet"%string; "Error"%string] [("T"%string,None); ("I"%string,None)] (TVariant [(Variant "NotMember"%string [] 0%N []); (Variant "DuplicateProposal"%string [] 1%N []); (Variant "ProposalMissing"%string [] 2%N []); (Variant "WrongIndex"%string [] 3%N []); (Variant "DuplicateVote"%string [] 4%N []); (Variant "AlreadyInitialized"%string [] 5%N []); (Variant "TooEarly"%string [] 6%N []); (Variant "TooManyProposals"%string [] 7%N []); (Variant "WrongProposalWeight"%string [] 8%N []); (Variant "WrongProposalLength"%string [] 9%N [])]) []).
Definition md_t507 : ty := (Ty ["pallet_membership"%string; "pallet"%string; "Error"%string] [("T"%string,None); ("I"%string,None)] (TVariant [(Variant "AlreadyMember"%string [] 0%N []); (Variant "NotMember"%string [] 1%N []); (Variant "TooManyMembers"%string [] 2%N [])]) []).
Definition md_t508 : ty := (Ty ["bounded_collections"%string; "bounded_vec"%string; "BoundedVec"%string] [("T"%string,(Some 509%N)); ("S"%string,None)] (TComposite [(Field None 510%N (Some "Vec<T>"%string) [])]) []).
Definition md_t509 : ty := (Ty [] [] (TTuple [4%N; 228%N; 0%N]) []).
Definition md_t510 : ty := (Ty [] [] (TSequence 509%N) []).
Definition md_t511 : ty := (Ty [] [] (TTuple [374%N; 6%N]) []).
Definition md_t512 : ty := (Ty ["pallet_democracy"%string; "types"%string; "ReferendumInfo"%string] [("BlockNumber"%string,(Some 4%N)); ("Proposal"%string,(Some 228%N)); ("Balance"%string,(Some 6%N))] (TVariant [(Variant "Ongoing"%string [(Field None 513%N (Some "ReferendumStatus<BlockNumber, Proposal, Balance>"%string) [])] 0%N []); (Variant "Finished"%string [(Field (Some "approved"%string) 108%N (Some "bool"%string) []); (Field (Some "end"%string) 4%N (Some "BlockNumber"%string) [])] 1%N [])]) []).
Definition md_t513 : ty := (Ty ["pallet_democracy"%string; "types"%string; "ReferendumStatus"%string] [("BlockNumber"%string,(Some 4%N)); ("Proposal"%string,(Some 228%N)); ("Balance"%string,(Some 6%N))] (TComposite [(Field (Some "end"%string) 4%N (Some "BlockNumber"%string) []); (Field (Some "proposal"%string) 228%N (Some "Proposal"%string) []); (Field (Some "threshold"%string) 151%N (Some "VoteThreshold"%string) []); (Field (Some "delay"%string) 4%N (Some "BlockNumber"%string) []); (Field (Some "tally"%string) 514%N (Some "Tally<Balance>"%string) [])]) []).
Definition md_t514 : ty := (Ty ["pallet_democracy"%string; "types"%string; "Tally"%string] [("Balance"%string,(Some 6%N))] (TComposite [(Field (Some "ayes"%string) 6%N (Some "Balance"%string) []); (Field (Some "nays"%string) 6%N (Some "Balance"%string) []); (Field (Some "turnout"%string) 6%N (Some "Balance"%string) [])]) []).
Definition md_t515 : ty := (Ty ["pallet_democracy"%string; "vote"%string; "Voting"%string] [("Balance"%string,(Some 6%N)); ("AccountId"%string,(Some 0%N)); ("BlockNumber"%string,(Some 4%N)); ("MaxVotes"%string,None)] (TVariant [(Variant "Direct"%string [(Field (Some "votes"%string) 516%N (Some "BoundedVec<(ReferendumIndex, AccountVote<Balance>), MaxVotes>"%string) []); (Field (Some "delegations"%string) 519%N (Some "Delegations<Balance>"%string) []); (Field (Some "prior"%string) 520%N (Some "PriorLock<BlockNumber, Balance>"%string) [])] 0%N []); (Variant "Delegating"%string [(Field (Some "balance"%string) 6%N (Some "Balance"%string) []); (Field (Some "target"%string) 0%N (Some "AccountId"%string) []); (Field (Some "conviction"%string) 304%N (Some "Conviction"%string) []); (Field (Some "delegations"%string) 519%N (Some "Delegations<Balance>"%string) []); (Field (Some "prior"%string) 520%N (Some "PriorLock<BlockNumber, Balance>"%string) [])] 1%N [])]) []).
Definition md_t516 : ty := (Ty ["bounded_collections"%string; "bounded_vec"%string; "BoundedVec"%string] [("T"%string,(Some 517%N)); ("S"%string,None)] (TComposite [(Field None 518%N (Some "Vec<T>"%string) [])]) []).
Definition md_t517 : ty := (Ty [] [] (TTuple [4%N; 152%N]) []).
Definition md_t518 : ty := (Ty [] [] (TSequence 517%N) []).
Definition md_t519 : ty := (Ty ["pallet_democracy"%string; "types"%string; "Delegations"%string] [("Balance"%string,(Some 6%N))] (TComposite [(Field (Some "votes"%string) 6%N (Some "Balance"%string) []); (Field (Some "capital"%string) 6%N (Some "Balance"%string) [])]) []).
Definition md_t520 : ty := (Ty ["pallet_democracy"%string; "vote"%string; "PriorLock"%string] [("BlockNumber"%string,(Some 4%N)); ("Balance"%string,(Some 6%N))] (TComposite [(Field None 4%N (Some "BlockNumber"%string) []); (Field None 6%N (Some "Balance"%string) [])]) []).
Definition md_t521 : ty := (Ty [] [] (TTuple [228%N; 151%N]) []).
Definition md_t522 : ty := (Ty [] [] (TTuple [4%N; 374%N]) []).
Definition md_t523 : ty := (Ty ["pallet_democracy"%string; "pallet"%string; "Error"%string] [("T"%string,None)] (TVariant [(Variant "ValueLow"%string [] 0%N []); (Variant "ProposalMissing"%string [] 1%N []); (Variant "AlreadyCanceled"%string [] 2%N []); (Variant "DuplicateProposal"%string [] 3%N []); (Variant "ProposalBlacklisted"%string [] 4%N []); (Variant "NotSimpleMajority"%string [] 5%N []); (Variant "InvalidHash"%string [] 6%N []); (Variant "NoProposal"%string [] 7%N []); (Variant "AlreadyVetoed"%string [] 8%N []); (Variant "ReferendumInvalid"%string [] 9%N []); (Variant "NoneWaiting"%string [] 10%N []); (Variant "NotVoter"%string [] 11%N []); (Variant "NoPermission"%string [] 12%N []); (Variant "AlreadyDelegating"%string [] 13%N []); (Variant "InsufficientFunds"%string [] 14%N []); (Variant "NotDelegating"%string [] 15%N []); (Variant "VotesExist"%string [] 16%N []); (Variant "InstantNotAllowed"%string [] 17%N []); (Variant "Nonsense"%string [] 18%N []); (Variant "WrongUpperBound"%string [] 19%N []); (Variant "MaxVotesReached"%string [] 20%N []); (Variant "TooMany"%string [] 21%N []); (Variant "VotingPeriodLow"%string [] 22%N []); (Variant "PreimageNotExist"%string [] 23%N [])]) []).
Definition md_t524 : ty := (Ty ["orml_oracle"%string; "module"%string; "TimestampedValue"%string] [("Value"%string,(Some 61%N)); ("Moment"%string,(Some 11%N))] (TComposite [(Field (Some "value"%string) 61%N (Some "Value"%string) []); (Field (Some "timestamp"%string) 11%N (Some "Moment"%string) [])]) []).
Definition md_t525 : ty := (Ty ["orml_utilities"%string; "ordered_set"%string; "OrderedSet"%string] [("T"%string,(Some 0%N)); ("S"%string,None)] (TComposite [(Field None 526%N (Some "BoundedVec<T, S>"%string) [])]) []).
Definition md_t526 : ty := (Ty ["bounded_collections"%string; "bounded_vec"%string; "BoundedVec"%string] [("T"%string,(Some 0%N)); ("S"%string,None)] (TComposite [(Field None 66%N (Some "Vec<T>"%string) [])]) []).
Definition md_t527 : ty := (Ty ["orml_oracle"%string; "module"%string; "Error"%string] [("T"%string,None); ("I"%string,None)] (TVariant [(Variant "NoPermission"%string [] 0%N []); (Variant "AlreadyFeeded"%string [] 1%N [])]) []).
Definition md_t528 : ty := (Ty ["bounded_collections"%string; "bounded_vec"%string; "BoundedVec"%string] [("T"%string,(Some 0%N)); ("S"%string,None)] (TComposite [(Field None 66%N (Some "Vec<T>"%string) [])]) []).
Definition md_t529 : ty := (Ty ["pallet_membership"%string; "pallet"%string; "Error"%string] [("T"%string,None); ("I"%string,None)] (TVariant [(Variant "AlreadyMember"%string [] 0%N []); (Variant "NotMember"%string [] 1%N []); (Variant "TooManyMembers"%string [] 2%N [])]) []).
Definition md_t530 : ty := (Ty ["orml_traits"%string; "auction"%string; "AuctionInfo"%string] [("AccountId"%string,(Some 0%N)); ("Balance"%string,(Some 6%N)); ("BlockNumber"%string,(Some 4%N))] (TComposite [(Field (Some "bid"%string) 388%N (Some "Option<(AccountId, Balance)>"%string) []); (Field (Some "start"%string) 4%N (Some "BlockNumber"%string) []); (Field (Some "end"%string) 287%N (Some "Option<BlockNumber>"%string) [])]) []).
Definition md_t531 : ty := (Ty ["orml_auction"%string; "module"%string; "Error"%string] [("T"%string,None)] (TVariant [(Variant "AuctionNotExist"%string [] 0%N []); (Variant "AuctionNotStarted"%string [] 1%N []); (Variant "BidNotAccepted"%string [] 2%N []); (Variant "InvalidBidPrice"%string [] 3%N []); (Variant "NoAvailableAuctionId"%string [] 4%N [])]) []).
Definition md_t532 : ty := (Ty ["orml_rewards"%string; "PoolInfo"%string] [("Share"%string,(Some 6%N)); ("Balance"%string,(Some 6%N)); ("CurrencyId"%string,(Some 52%N))] (TComposite [(Field (Some "total_shares"%string) 6%N (Some "Share"%string) []); (Field (Some "rewards"%string) 533%N (Some "BTreeMap<CurrencyId, (Balance, Balance)>"%string) [])]) []).
Definition md_t533 : ty := (Ty ["BTreeMap"%string] [("K"%string,(Some 52%N)); ("V"%string,(Some 534%N))] (TComposite [(Field None 535%N None [])]) []).
Definition md_t534 : ty := (Ty [] [] (TTuple [6%N; 6%N]) []).
Definition md_t535 : ty := (Ty [] [] (TSequence 536%N) []).
Definition md_t536 : ty := (Ty [] [] (TTuple [52%N; 534%N]) []).
Definition md_t537 : ty := (Ty [] [] (TTuple [182%N; 0%N]) []).
Definition md_t538 : ty := (Ty [] [] (TTuple [6%N; 539%N]) []).
Definition md_t539 : ty := (Ty ["BTreeMap"%string] [("K"%string,(Some 52%N)); ("V"%string,(Some 6%N))] (TComposite [(Field None 174%N None [])]) []).
Definition md_t540 : ty := (Ty ["orml_rewards"%string; "module"%string; "Error"%string] [("T"%string,None)] (TVariant [(Variant "PoolDoesNotExist"%string [] 0%N []); (Variant "ShareDoesNotExist"%string [] 1%N []); (Variant "CanSplitOnlyLessThanShare"%string [] 2%N [])]) []).
Definition md_t541 : ty := (Ty ["orml_nft"%string; "ClassInfo"%string] [("TokenId"%string,(Some 11%N)); ("AccountId"%string,(Some 0%N)); ("Data"%string,(Some 542%N)); ("ClassMetadataOf"%string,(Some 543%N))] (TComposite [(Field (Some "metadata"%string) 543%N (Some "ClassMetadataOf"%string) []); (Field (Some "total_issuance"%string) 11%N (Some "TokenId"%string) []); (Field (Some "owner"%string) 0%N (Some "AccountId"%string) []); (Field (Some "data"%string) 542%N (Some "Data"%string) [])]) []).
Definition md_t542 : ty := (Ty ["module_nft"%string; "ClassData"%string] [("Balance"%string,(Some 6%N))] (TComposite [(Field (Some "deposit"%string) 6%N (Some "Balance"%string) []); (Field (Some "properties"%string) 342%N (Some "Properties"%string) []); (Field (Some "attributes"%string) 344%N (Some "Attributes"%string) [])]) []).
Definition md_t543 : ty := (Ty ["bounded_collections"%string; "bounded_vec"%string; "BoundedVec"%string] [("T"%string,(Some 2%N)); ("S"%string,None)] (TComposite [(Field None 13%N (Some "Vec<T>"%string) [])]) []).
Definition md_t544 : ty := (Ty ["orml_nft"%string; "TokenInfo"%string] [("AccountId"%string,(Some 0%N)); ("Data"%string,(Some 545%N)); ("TokenMetadataOf"%string,(Some 543%N))] (TComposite [(Field (Some "metadata"%string) 543%N (Some "TokenMetadataOf"%string) []); (Field (Some "owner"%string) 0%N (Some "AccountId"%string) []); (Field (Some "data"%string) 545%N (Some "Data"%string) [])]) []).
Definition md_t545 : ty := (Ty ["module_nft"%string; "TokenData"%string] [("Balance"%string,(Some 6%N))] (TComposite [(Field (Some "deposit"%string) 6%N (Some "Balance"%string) []); (Field (Some "attributes"%string) 344%N (Some "Attributes"%string) [])]) []).
Definition md_t546 : ty := (Ty [] [] (TTuple [0%N; 4%N; 11%N]) []).
Definition md_t547 : ty := (Ty ["orml_nft"%string; "module"%string; "Error"%string] [("T"%string,None)] (TVariant [(Variant "NoAvailableClassId"%string [] 0%N []); (Variant "NoAvailableTokenId"%string [] 1%N []); (Variant "TokenNotFound"%string [] 2%N []); (Variant "ClassNotFound"%string [] 3%N []); (Variant "NoPermission"%string [] 4%N []); (Variant "CannotDestroyClass"%string [] 5%N []); (Variant "MaxMetadataExceeded"%string [] 6%N [])]) []).
Definition md_t548 : ty := (Ty ["module_prices"%string; "module"%string; "Error"%string] [("T"%string,None)] (TVariant [(Variant "AccessPriceFailed"%string [] 0%N []); (Variant "NoLockedPrice"%string [] 1%N [])]) []).
Definition md_t549 : ty := (Ty ["module_dex"%string; "TradingPairStatus"%string] [("Balance"%string,(Some 6%N)); ("BlockNumber"%string,(Some 4%N))] (TVariant [(Variant "Disabled"%string [] 0%N []); (Variant "Provisioning"%string [(Field None 550%N (Some "ProvisioningParameters<Balance, BlockNumber>"%string) [])] 1%N []); (Variant "Enabled"%string [] 2%N [])]) []).
Definition md_t550 : ty := (Ty ["module_dex"%string; "ProvisioningParameters"%string] [("Balance"%string,(Some 6%N)); ("BlockNumber"%string,(Some 4%N))] (TComposite [(Field (Some "min_contribution"%string) 534%N (Some "(Balance, Balance)"%string) []); (Field (Some "target_provision"%string) 534%N (Some "(Balance, Balance)"%string) []); (Field (Some "accumulated_provision"%string) 534%N (Some "(Balance, Balance)"%string) []); (Field (Some "not_before"%string) 4%N (Some "BlockNumber"%string) [])]) []).
Definition md_t551 : ty := (Ty [] [] (TTuple [164%N; 0%N]) []).
Definition md_t552 : ty := (Ty [] [] (TTuple [61%N; 61%N]) []).
Definition md_t553 : ty := (Ty ["module_dex"%string; "module"%string; "Error"%string] [("T"%string,None)] (TVariant [(Variant "AlreadyEnabled"%string [] 0%N []); (Variant "MustBeEnabled"%string [] 1%N []); (Variant "MustBeProvisioning"%string [] 2%N []); (Variant "MustBeDisabled"%string [] 3%N []); (Variant "NotAllowedList"%string [] 4%N []); (Variant "InvalidContributionIncrement"%string [] 5%N []); (Variant "InvalidLiquidityIncrement"%string [] 6%N []); (Variant "InvalidCurrencyId"%string [] 7%N []); (Variant "InvalidTradingPathLength"%string [] 8%N []); (Variant "InsufficientTargetAmount"%string [] 9%N []); (Variant "ExcessiveSupplyAmount"%string [] 10%N []); (Variant "InsufficientLiquidity"%string [] 11%N []); (Variant "ZeroSupplyAmount"%string [] 12%N []); (Variant "ZeroTargetAmount"%string [] 13%N []); (Variant "UnacceptableShareIncrement"%string [] 14%N []); (Variant "UnacceptableLiquidityWithdrawn"%string [] 15%N []); (Variant "InvariantCheckFailed"%string [] 16%N []); (Variant "UnqualifiedProvision"%string [] 17%N []); (Variant "StillProvisioning"%string [] 18%N []); (Variant "AssetUnregistered"%string [] 19%N []); (Variant "InvalidTradingPath"%string [] 20%N []); (Variant "NotAllowedRefund"%string [] 21%N []); (Variant "CannotSwap"%string [] 22%N [])]) []).
Definition md_t554 : ty := (Ty [] [] (TTuple [555%N; 555%N; 11%N]) []).
Definition md_t555 : ty := (Ty ["primitive_types"%string; "U256"%string] [] (TComposite [(Field None 556%N (Some "[u64; 4]"%string) [])]) []).
Definition md_t556 : ty := (Ty [] [] (TArray 4%N 11%N) []).
Definition md_t557 : ty := (Ty [] [] (TTuple [61%N; 61%N; 555%N; 555%N; 11%N; 11%N]) []).
Definition md_t558 : ty := (Ty ["module_dex_oracle"%string; "module"%string; "Error"%string] [("T"%string,None)] (TVariant [(Variant "AveragePriceAlreadyEnabled"%string [] 0%N []); (Variant "AveragePriceMustBeEnabled"%string [] 1%N []); (Variant "InvalidPool"%string [] 2%N []); (Variant "InvalidCurrencyId"%string [] 3%N []); (Variant "IntervalIsZero"%string [] 4%N [])]) []).
Definition md_t559 : ty := (Ty ["bounded_collections"%string; "bounded_vec"%string; "BoundedVec"%string] [("T"%string,(Some 255%N)); ("S"%string,None)] (TComposite [(Field None 254%N (Some "Vec<T>"%string) [])]) []).
Definition md_t560 : ty := (Ty [] [] (TSequence 162%N) []).
Definition md_t561 : ty := (Ty ["module_aggregated_dex"%string; "module"%string; "Error"%string] [("T"%string,None)] (TVariant [(Variant "CannotSwap"%string [] 0%N []); (Variant "InvalidPoolId"%string [] 1%N []); (Variant "InvalidTokenIndex"%string [] 2%N []); (Variant "InvalidSwapPath"%string [] 3%N [])]) []).
Definition md_t562 : ty := (Ty ["acala_primitives"%string; "bonding"%string; "ledger"%string; "BondingLedger"%string] [("Moment"%string,(Some 4%N)); ("MaxUnlockingChunks"%string,None); ("MinBond"%string,None)] (TComposite [(Field (Some "total"%string) 6%N (Some "Balance"%string) []); (Field (Some "active"%string) 6%N (Some "Balance"%string) []); (Field (Some "unlocking"%string) 563%N (Some "BoundedVec<UnlockChunk<Moment>, MaxUnlockingChunks>"%string) [])]) []).
Definition md_t563 : ty := (Ty ["bounded_collections"%string; "bounded_vec"%string; "BoundedVec"%string] [("T"%string,(Some 564%N)); ("S"%string,None)] (TComposite [(Field None 565%N (Some "Vec<T>"%string) [])]) []).
Definition md_t564 : ty := (Ty ["acala_primitives"%string; "bonding"%string; "ledger"%string; "UnlockChunk"%string] [("Moment"%string,(Some 4%N))] (TComposite [(Field (Some "value"%string) 6%N (Some "Balance"%string) []); (Field (Some "unlock_at"%string) 4%N (Some "Moment"%string) [])]) []).
Definition md_t565 : ty := (Ty [] [] (TSequence 564%N) []).
Definition md_t566 : ty := (Ty ["Option"%string] [("T"%string,(Some 426%N))] (TVariant [(Variant "None"%string [] 0%N []); (Variant "Some"%string [(Field None 426%N None [])] 1%N [])]) []).
Definition md_t567 : ty := (Ty ["module_earning"%string; "module"%string; "Error"%string] [("T"%string,None)] (TVariant [(Variant "BelowMinBondThreshold"%string [] 0%N []); (Variant "MaxUnlockChunksExceeded"%string [] 1%N []); (Variant "NotBonded"%string [] 2%N []); (Variant "NotAllowed"%string [] 3%N [])]) []).
Definition md_t568 : ty := (Ty ["module_auction_manager"%string; "CollateralAuctionItem"%string] [("AccountId"%string,(Some 0%N)); ("BlockNumber"%string,(Some 4%N))] (TComposite [(Field (Some "refund_recipient"%string) 0%N (Some "AccountId"%string) []); (Field (Some "currency_id"%string) 52%N (Some "CurrencyId"%string) []); (Field (Some "initial_amount"%string) 59%N (Some "Balance"%string) []); (Field (Some "amount"%string) 59%N (Some "Balance"%string) []); (Field (Some "target"%string) 59%N (Some "Balance"%string) []); (Field (Some "start_time"%string) 4%N (Some "BlockNumber"%string) [])]) []).
Definition md_t569 : ty := (Ty ["module_auction_manager"%string; "module"%string; "Error"%string] [("T"%string,None)] (TVariant [(Variant "AuctionNotExists"%string [] 0%N []); (Variant "InReverseStage"%string [] 1%N []); (Variant "InvalidFeedPrice"%string [] 2%N []); (Variant "MustAfterShutdown"%string [] 3%N []); (Variant "InvalidBidPrice"%string [] 4%N []); (Variant "InvalidAmount"%string [] 5%N [])]) []).
Definition md_t570 : ty := (Ty [] [] (TTuple [52%N; 0%N]) []).
Definition md_t571 : ty := (Ty ["acala_primitives"%string; "Position"%string] [] (TComposite [(Field (Some "collateral"%string) 6%N (Some "Balance"%string) []); (Field (Some "debit"%string) 6%N (Some "Balance"%string) [])]) []).
Definition md_t572 : ty := (Ty ["module_loans"%string; "module"%string; "Error"%string] [("T"%string,None)] (TVariant [(Variant "AmountConvertFailed"%string [] 0%N [])]) []).
Definition md_t573 : ty := (Ty [] [] (TTuple [0%N; 570%N]) []).
Definition md_t574 : ty := (Ty ["module_honzon"%string; "module"%string; "Error"%string] [("T"%string,None)] (TVariant [(Variant "NoPermission"%string [] 0%N []); (Variant "AlreadyShutdown"%string [] 1%N []); (Variant "AuthorizationNotExists"%string [] 2%N []); (Variant "AlreadyAuthorized"%string [] 3%N [])]) []).
Definition md_t575 : ty := (Ty ["module_cdp_treasury"%string; "module"%string; "Error"%string] [("T"%string,None)] (TVariant [(Variant "CollateralNotEnough"%string [] 0%N []); (Variant "SurplusPoolNotEnough"%string [] 1%N []); (Variant "DebitPoolNotEnough"%string [] 2%N []); (Variant "CannotSwap"%string [] 3%N []); (Variant "NotDexShare"%string [] 4%N [])]) []).
Definition md_t576 : ty := (Ty ["module_cdp_engine"%string; "RiskManagementParams"%string] [] (TComposite [(Field (Some "maximum_total_debit_value"%string) 6%N (Some "Balance"%string) []); (Field (Some "interest_rate_per_sec"%string) 577%N (Some "Option<FractionalRate>"%string) []); (Field (Some "liquidation_ratio"%string) 172%N (Some "Option<Ratio>"%string) []); (Field (Some "liquidation_penalty"%string) 577%N (Some "Option<FractionalRate>"%string) []); (Field (Some "required_collateral_ratio"%string) 172%N (Some "Option<Ratio>"%string) [])]) []).
Definition md_t577 : ty := (Ty ["Option"%string] [("T"%string,(Some 578%N))] (TVariant [(Variant "None"%string [] 0%N []); (Variant "Some"%string [(Field None 578%N None [])] 1%N [])]) []).
Definition md_t578 : ty := (Ty ["module_support"%string; "bounded"%string; "BoundedType"%string] [("T"%string,(Some 61%N)); ("Range"%string,None); ("MaxChangeAbs"%string,None)] (TComposite [(Field None 61%N (Some "T"%string) [])]) []).
Definition md_t579 : ty := (Ty ["bounded_collections"%string; "bounded_vec"%string; "BoundedVec"%string] [("T"%string,(Some 42%N)); ("S"%string,None)] (TComposite [(Field None 580%N (Some "Vec<T>"%string) [])]) []).
Definition md_t580 : ty := (Ty [] [] (TSequence 42%N) []).
Definition md_t581 : ty := (Ty ["module_cdp_engine"%string; "module"%string; "Error"%string] [("T"%string,None)] (TVariant [(Variant "ExceedDebitValueHardCap"%string [] 0%N []); (Variant "BelowRequiredCollateralRatio"%string [] 1%N []); (Variant "BelowLiquidationRatio"%string [] 2%N []); (Variant "MustBeUnsafe"%string [] 3%N []); (Variant "MustBeSafe"%string [] 4%N []); (Variant "InvalidCollateralType"%string [] 5%N []); (Variant "RemainDebitValueTooSmall"%string [] 6%N []); (Variant "CollateralAmountBelowMinimum"%string [] 7%N []); (Variant "InvalidFeedPrice"%string [] 8%N []); (Variant "NoDebitValue"%string [] 9%N []); (Variant "AlreadyShutdown"%string [] 10%N []); (Variant "MustAfterShutdown"%string [] 11%N []); (Variant "CollateralNotEnough"%string [] 12%N []); (Variant "NotEnoughDebitDecrement"%string [] 13%N []); (Variant "ConvertDebitBalanceFailed"%string [] 14%N []); (Variant "LiquidationFailed"%string [] 15%N []); (Variant "TooManyLiquidationContracts"%string [] 16%N []); (Variant "CollateralContractNotFound"%string [] 17%N []); (Variant "InvalidRate"%string [] 18%N [])]) []).
Definition md_t582 : ty := (Ty ["module_emergency_shutdown"%string; "module"%string; "Error"%string] [("T"%string,None)] (TVariant [(Variant "AlreadyShutdown"%string [] 0%N []); (Variant "MustAfterShutdown"%string [] 1%N []); (Variant "CanNotRefund"%string [] 2%N []); (Variant "ExistPotentialSurplus"%string [] 3%N []); (Variant "ExistUnhandledDebit"%string [] 4%N [])]) []).
Definition md_t583 : ty := (Ty ["module_homa"%string; "module"%string; "StakingLedger"%string] [] (TComposite [(Field (Some "bonded"%string) 59%N (Some "Balance"%string) []); (Field (Some "unlocking"%string) 177%N (Some "Vec<UnlockChunk>"%string) [])]) []).
Definition md_t584 : ty := (Ty [] [] (TTuple [6%N; 108%N]) []).
Definition md_t585 : ty := (Ty [] [] (TTuple [0%N; 4%N]) []).
Definition md_t586 : ty := (Ty [] [] (TSequence 40%N) []).
Definition md_t587 : ty := (Ty ["module_homa"%string; "module"%string; "Error"%string] [("T"%string,None)] (TVariant [(Variant "BelowMintThreshold"%string [] 0%N []); (Variant "BelowRedeemThreshold"%string [] 1%N []); (Variant "ExceededStakingCurrencySoftCap"%string [] 2%N []); (Variant "InsufficientUnclaimedRedemption"%string [] 3%N []); (Variant "OutdatedEraIndex"%string [] 4%N []); (Variant "FastMatchIsNotAllowed"%string [] 5%N []); (Variant "CannotCompletelyFastMatch"%string [] 6%N []); (Variant "InvalidRate"%string [] 7%N []); (Variant "InvalidLastEraBumpedBlock"%string [] 8%N [])]) []).
Definition md_t588 : ty := (Ty [] [] (TTuple [9%N; 6%N]) []).
Definition md_t589 : ty := (Ty ["module_xcm_interface"%string; "module"%string; "Error"%string] [("T"%string,None)] (TVariant [(Variant "XcmFailed"%string [] 0%N [])]) []).
Definition md_t590 : ty := (Ty [] [] (TTuple [182%N; 52%N]) []).
Definition md_t591 : ty := (Ty ["module_incentives"%string; "module"%string; "Error"%string] [("T"%string,None)] (TVariant [(Variant "NotEnough"%string [] 0%N []); (Variant "InvalidCurrencyId"%string [] 1%N []); (Variant "InvalidPoolId"%string [] 2%N []); (Variant "InvalidRate"%string [] 3%N [])]) []).
Definition md_t592 : ty := (Ty ["module_nft"%string; "module"%string; "Error"%string] [("T"%string,None)] (TVariant [(Variant "ClassIdNotFound"%string [] 0%N []); (Variant "TokenIdNotFound"%string [] 1%N []); (Variant "NoPermission"%string [] 2%N []); (Variant "InvalidQuantity"%string [] 3%N []); (Variant "NonTransferable"%string [] 4%N []); (Variant "NonBurnable"%string [] 5%N []); (Variant "NonMintable"%string [] 6%N []); (Variant "CannotDestroyClass"%string [] 7%N []); (Variant "Immutable"%string [] 8%N []); (Variant "AttributesTooLarge"%string [] 9%N []); (Variant "IncorrectTokenId"%string [] 10%N [])]) []).
Definition md_t593 : ty := (Ty ["module_asset_registry"%string; "module"%string; "Error"%string] [("T"%string,None)] (TVariant [(Variant "BadLocation"%string [] 0%N []); (Variant "MultiLocationExisted"%string [] 1%N []); (Variant "AssetIdNotExists"%string [] 2%N []); (Variant "AssetIdExisted"%string [] 3%N [])]) []).
Definition md_t594 : ty := (Ty ["module_evm"%string; "module"%string; "AccountInfo"%string] [("Index"%string,(Some 4%N))] (TComposite [(Field (Some "nonce"%string) 4%N (Some "Index"%string) []); (Field (Some "contract_info"%string) 595%N (Some "Option<ContractInfo>"%string) [])]) []).
Definition md_t595 : ty := (Ty ["Option"%string] [("T"%string,(Some 596%N))] (TVariant [(Variant "None"%string [] 0%N []); (Variant "Some"%string [(Field None 596%N None [])] 1%N [])]) []).
Definition md_t596 : ty := (Ty ["module_evm"%string; "module"%string; "ContractInfo"%string] [] (TComposite [(Field (Some "code_hash"%string) 12%N (Some "H256"%string) []); (Field (Some "maintainer"%string) 42%N (Some "EvmAddress"%string) []); (Field (Some "published"%string) 108%N (Some "bool"%string) [])]) []).
Definition md_t597 : ty := (Ty [] [] (TTuple [42%N; 12%N]) []).
Definition md_t598 : ty := (Ty ["bounded_collections"%string; "bounded_vec"%string; "BoundedVec"%string] [("T"%string,(Some 2%N)); ("S"%string,None)] (TComposite [(Field None 13%N (Some "Vec<T>"%string) [])]) []).
Definition md_t599 : ty := (Ty ["module_evm"%string; "module"%string; "CodeInfo"%string] [] (TComposite [(Field (Some "code_size"%string) 4%N (Some "u32"%string) []); (Field (Some "ref_count"%string) 4%N (Some "u32"%string) [])]) []).
Definition md_t600 : ty := (Ty ["module_evm"%string; "module"%string; "Error"%string] [("T"%string,None)] (TVariant [(Variant "AddressNotMapped"%string [] 0%N []); (Variant "ContractNotFound"%string [] 1%N []); (Variant "NoPermission"%string [] 2%N []); (Variant "ContractDevelopmentNotEnabled"%string [] 3%N []); (Variant "ContractDevelopmentAlreadyEnabled"%string [] 4%N []); (Variant "ContractAlreadyPublished"%string [] 5%N []); (Variant "ContractExceedsMaxCodeSize"%string [] 6%N []); (Variant "ContractAlreadyExisted"%string [] 7%N []); (Variant "OutOfStorage"%string [] 8%N []); (Variant "ChargeFeeFailed"%string [] 9%N []); (Variant "CannotKillContract"%string [] 10%N []); (Variant "ReserveStorageFailed"%string [] 11%N []); (Variant "UnreserveStorageFailed"%string [] 12%N []); (Variant "ChargeStorageFailed"%string [] 13%N []); (Variant "InvalidDecimals"%string [] 14%N []); (Variant "StrictCallFailed"%string [] 15%N [])]) []).
Definition md_t601 : ty := (Ty ["module_evm_bridge"%string; "module"%string; "Error"%string] [("T"%string,None)] (TVariant [(Variant "ExecutionFail"%string [] 0%N []); (Variant "ExecutionRevert"%string [] 1%N []); (Variant "ExecutionFatal"%string [] 2%N []); (Variant "ExecutionError"%string [] 3%N []); (Variant "InvalidReturnValue"%string [] 4%N [])]) []).
Definition md_t602 : ty := (Ty ["module_evm_accounts"%string; "module"%string; "Error"%string] [("T"%string,None)] (TVariant [(Variant "AccountIdHasMapped"%string [] 0%N []); (Variant "EthAddressHasMapped"%string [] 1%N []); (Variant "BadSignature"%string [] 2%N []); (Variant "InvalidSignature"%string [] 3%N []); (Variant "NonZeroRefCount"%string [] 4%N [])]) []).
Definition md_t603 : ty := (Ty ["nutsfinance_stable_asset"%string; "StableAssetPoolInfo"%string] [("AssetId"%string,(Some 52%N)); ("AtLeast64BitUnsigned"%string,(Some 6%N)); ("Balance"%string,(Some 6%N)); ("AccountId"%string,(Some 0%N)); ("BlockNumber"%string,(Some 4%N))] (TComposite [(Field (Some "pool_asset"%string) 52%N (Some "AssetId"%string) []); (Field (Some "assets"%string) 162%N (Some "Vec<AssetId>"%string) []); (Field (Some "precisions"%string) 163%N (Some "Vec<AtLeast64BitUnsigned>"%string) []); (Field (Some "mint_fee"%string) 6%N (Some "AtLeast64BitUnsigned"%string) []); (Field (Some "swap_fee"%string) 6%N (Some "AtLeast64BitUnsigned"%string) []); (Field (Some "redeem_fee"%string) 6%N (Some "AtLeast64BitUnsigned"%string) []); (Field (Some "total_supply"%string) 6%N (Some "Balance"%string) []); (Field (Some "a"%string) 6%N (Some "AtLeast64BitUnsigned"%string) []); (Field (Some "a_block"%string) 4%N (Some "BlockNumber"%string) []); (Field (Some "future_a"%string) 6%N (Some "AtLeast64BitUnsigned"%string) []); (Field (Some "future_a_block"%string) 4%N (Some "BlockNumber"%string) []); (Field (Some "balances"%string) 163%N (Some "Vec<Balance>"%string) []); (Field (Some "fee_recipient"%string) 0%N (Some "AccountId"%string) []); (Field (Some "account_id"%string) 0%N (Some "AccountId"%string) []); (Field (Some "yield_recipient"%string) 0%N (Some "AccountId"%string) []); (Field (Some "precision"%string) 6%N (Some "AtLeast64BitUnsigned"%string) [])]) []).
Definition md_t604 : ty := (Ty ["nutsfinance_stable_asset"%string; "pallet"%string; "Error"%string] [("T"%string,None)] (TVariant [(Variant "InconsistentStorage"%string [] 0%N []); (Variant "InvalidPoolAsset"%string [] 1%N []); (Variant "ArgumentsMismatch"%string [] 2%N []); (Variant "ArgumentsError"%string [] 3%N []); (Variant "PoolNotFound"%string [] 4%N []); (Variant "Math"%string [] 5%N []); (Variant "InvalidPoolValue"%string [] 6%N []); (Variant "MintUnderMin"%string [] 7%N []); (Variant "SwapUnderMin"%string [] 8%N []); (Variant "RedeemUnderMin"%string [] 9%N []); (Variant "RedeemOverMax"%string [] 10%N [])]) []).
Definition md_t605 : ty := (Ty ["Option"%string] [("T"%string,(Some 606%N))] (TVariant [(Variant "None"%string [] 0%N []); (Variant "Some"%string [(Field None 606%N None [])] 1%N [])]) []).
Definition md_t606 : ty := (Ty ["polkadot_primitives"%string; "v5"%string; "UpgradeRestriction"%string] [] (TVariant [(Variant "Present"%string [] 0%N [])]) []).
Definition md_t607 : ty := (Ty ["cumulus_pallet_parachain_system"%string; "relay_state_snapshot"%string; "MessagingStateSnapshot"%string] [] (TComposite [(Field (Some "dmq_mqc_head"%string) 12%N (Some "relay_chain::Hash"%string) []); (Field (Some "relay_dispatch_queue_size"%string) 608%N (Some "RelayDispachQueueSize"%string) []); (Field (Some "ingress_channels"%string) 609%N (Some "Vec<(ParaId, AbridgedHrmpChannel)>"%string) []); (Field (Some "egress_channels"%string) 609%N (Some "Vec<(ParaId, AbridgedHrmpChannel)>"%string) [])]) []).
Definition md_t608 : ty := (Ty ["cumulus_pallet_parachain_system"%string; "relay_state_snapshot"%string; "RelayDispachQueueSize"%string] [] (TComposite [(Field (Some "remaining_count"%string) 4%N (Some "u32"%string) []); (Field (Some "remaining_size"%string) 4%N (Some "u32"%string) [])]) []).
Definition md_t609 : ty := (Ty [] [] (TSequence 610%N) []).
Definition md_t610 : ty := (Ty [] [] (TTuple [71%N; 611%N]) []).
Definition md_t611 : ty := (Ty ["polkadot_primitives"%string; "v5"%string; "AbridgedHrmpChannel"%string] [] (TComposite [(Field (Some "max_capacity"%string) 4%N (Some "u32"%string) []); (Field (Some "max_total_size"%string) 4%N (Some "u32"%string) []); (Field (Some "max_message_size"%string) 4%N (Some "u32"%string) []); (Field (Some "msg_count"%string) 4%N (Some "u32"%string) []); (Field (Some "total_size"%string) 4%N (Some "u32"%string) []); (Field (Some "mqc_head"%string) 305%N (Some "Option<Hash>"%string) [])]) []).
Definition md_t612 : ty := (Ty ["polkadot_primitives"%string; "v5"%string; "AbridgedHostConfiguration"%string] [] (TComposite [(Field (Some "max_code_size"%string) 4%N (Some "u32"%string) []); (Field (Some "max_head_data_size"%string) 4%N (Some "u32"%string) []); (Field (Some "max_upward_queue_count"%string) 4%N (Some "u32"%string) []); (Field (Some "max_upward_queue_size"%string) 4%N (Some "u32"%string) []); (Field (Some "max_upward_message_size"%string) 4%N (Some "u32"%string) []); (Field (Some "max_upward_message_num_per_candidate"%string) 4%N (Some "u32"%string) []); (Field (Some "hrmp_max_message_num_per_candidate"%string) 4%N (Some "u32"%string) []); (Field (Some "validation_upgrade_cooldown"%string) 4%N (Some "BlockNumber"%string) []); (Field (Some "validation_upgrade_delay"%string) 4%N (Some "BlockNumber"%string) [])]) []).
Definition md_t613 : ty := (Ty ["cumulus_primitives_parachain_inherent"%string; "MessageQueueChain"%string] [] (TComposite [(Field None 12%N (Some "RelayHash"%string) [])]) []).
Definition md_t614 : ty := (Ty ["BTreeMap"%string] [("K"%string,(Some 71%N)); ("V"%string,(Some 613%N))] (TComposite [(Field None 615%N None [])]) []).
Definition md_t615 : ty := (Ty [] [] (TSequence 616%N) []).
Definition md_t616 : ty := (Ty [] [] (TTuple [71%N; 613%N]) []).
Definition md_t617 : ty := (Ty [] [] (TSequence 618%N) []).
Definition md_t618 : ty := (Ty ["polkadot_core_primitives"%string; "OutboundHrmpMessage"%string] [("Id"%string,(Some 71%N))] (TComposite [(Field (Some "recipient"%string) 71%N (Some "Id"%string) []); (Field (Some "data"%string) 13%N (Some "sp_std::vec::Vec<u8>"%string) [])]) []).
Definition md_t619 : ty := (Ty ["cumulus_pallet_parachain_system"%string; "CodeUpgradeAuthorization"%string] [("T"%string,None)] (TComposite [(Field (Some "code_hash"%string) 12%N (Some "T::Hash"%string) []); (Field (Some "check_version"%string) 108%N (Some "bool"%string) [])]) []).
Definition md_t620 : ty := (Ty ["cumulus_pallet_parachain_system"%string; "pallet"%string; "Error"%string] [("T"%string,None)] (TVariant [(Variant "OverlappingUpgrades"%string [] 0%N []); (Variant "ProhibitedByPolkadot"%string [] 1%N []); (Variant "TooBig"%string [] 2%N []); (Variant "ValidationDataNotAvailable"%string [] 3%N []); (Variant "HostConfigurationNotAvailable"%string [] 4%N []); (Variant "NotScheduled"%string [] 5%N []); (Variant "NothingAuthorized"%string [] 6%N []); (Variant "Unauthorized"%string [] 7%N [])]) []).
Definition md_t621 : ty := (Ty ["pallet_sudo"%string; "pallet"%string; "Error"%string] [("T"%string,None)] (TVariant [(Variant "RequireSudo"%string [] 0%N [])]) []).
Definition md_t622 : ty := (Ty ["acala_primitives"%string; "unchecked_extrinsic"%string; "AcalaUncheckedExtrinsic"%string] [("Call"%string,(Some 229%N)); ("Extra"%string,(Some 623%N)); ("ConvertEthTx"%string,None); ("StorageDepositPerByte"%string,(Some 634%N)); ("TxFeePerGas"%string,(Some 635%N)); ("CheckPayerTx"%string,None)] (TComposite [(Field None 636%N (Some "UncheckedExtrinsic<Address, Call, AcalaMultiSignature, Extra>"%string) [])]) []).
Definition md_t623 : ty := (Ty [] [] (TTuple [624%N; 625%N; 626%N; 627%N; 628%N; 630%N; 631%N; 632%N; 633%N]) []).
Definition md_t624 : ty := (Ty ["frame_system"%string; "extensions"%string; "check_non_zero_sender"%string; "CheckNonZeroSender"%string] [("T"%string,None)] (TComposite []) []).
Definition md_t625 : ty := (Ty ["frame_system"%string; "extensions"%string; "check_spec_version"%string; "CheckSpecVersion"%string] [("T"%string,None)] (TComposite []) []).
Definition md_t626 : ty := (Ty ["frame_system"%string; "extensions"%string; "check_tx_version"%string; "CheckTxVersion"%string] [("T"%string,None)] (TComposite []) []).
Definition md_t627 : ty := (Ty ["frame_system"%string; "extensions"%string; "check_genesis"%string; "CheckGenesis"%string] [("T"%string,None)] (TComposite []) []).
Definition md_t628 : ty := (Ty ["frame_system"%string; "extensions"%string; "check_mortality"%string; "CheckMortality"%string] [("T"%string,None)] (TComposite [(Field None 629%N (Some "Era"%string) [])]) []).
Definition md_t629 : ty := (Ty ["sp_runtime"%string; "generic"%string; "era"%string; "Era"%string] [] (TVariant [(Variant "Immortal"%string [] 0%N []); (Variant "Mortal1"%string [(Field None 2%N None [])] 1%N []); (Variant "Mortal2"%string [(Field None 2%N None [])] 2%N []); (Variant "Mortal3"%string [(Field None 2%N None [])] 3%N []); (Variant "Mortal4"%string [(Field None 2%N None [])] 4%N []); (Variant "Mortal5"%string [(Field None 2%N None [])] 5%N []); (Variant "Mortal6"%string [(Field None 2%N None [])] 6%N []); (Variant "Mortal7"%string [(Field None 2%N None [])] 7%N []); (Variant "Mortal8"%string [(Field None 2%N None [])] 8%N []); (Variant "Mortal9"%string [(Field None 2%N None [])] 9%N []); (Variant "Mortal10"%string [(Field None 2%N None [])] 10%N []); (Variant "Mortal11"%string [(Field None 2%N None [])] 11%N []); (Variant "Mortal12"%string [(Field None 2%N None [])] 12%N []); (Variant "Mortal13"%string [(Field None 2%N None [])] 13%N []); (Variant "Mortal14"%string [(Field None 2%N None [])] 14%N []); (Variant "Mortal15"%string [(Field None 2%N None [])] 15%N []); (Variant "Mortal16"%string [(Field None 2%N None [])] 16%N []); (Variant "Mortal17"%string [(Field None 2%N None [])] 17%N []); (Variant "Mortal18"%string [(Field None 2%N None [])] 18%N []); (Variant "Mortal19"%string [(Field None 2%N None [])] 19%N []); (Variant "Mortal20"%string [(Field None 2%N None [])] 20%N []); (Variant "Mortal21"%string [(Field None 2%N None [])] 21%N []); (Variant "Mortal22"%string [(Field None 2%N None [])] 22%N []); (Variant "Mortal23"%string [(Field None 2%N None [])] 23%N []); (Variant "Mortal24"%string [(Field None 2%N None [])] 24%N []); (Variant "Mortal25"%string [(Field None 2%N None [])] 25%N []); (Variant "Mortal26"%string [(Field None 2%N None [])] 26%N []); (Variant "Mortal27"%string [(Field None 2%N None [])] 27%N []); (Variant "Mortal28"%string [(Field None 2%N None [])] 28%N []); (Variant "Mortal29"%string [(Field None 2%N None [])] 29%N []); (Variant "Mortal30"%string [(Field None 2%N None [])] 30%N []); (Variant "Mortal31"%string [(Field None 2%N None [])] 31%N []); (Variant "Mortal32"%string [(Field None 2%N None [])] 32%N []); (Variant "Mortal33"%string [(Field None 2%N None [])] 33%N []); (Variant "Mortal34"%string [(Field None 2%N None [])] 34%N []); (Variant "Mortal35"%string [(Field None 2%N None [])] 35%N []); (Variant "Mortal36"%string [(Field None 2%N None [])] 36%N []); (Variant "Mortal37"%string [(Field None 2%N None [])] 37%N []); (Variant "Mortal38"%string [(Field None 2%N None [])] 38%N []); (Variant "Mortal39"%string [(Field None 2%N None [])] 39%N []); (Variant "Mortal40"%string [(Field None 2%N None [])] 40%N []); (Variant "Mortal41"%string [(Field None 2%N None [])] 41%N []); (Variant "Mortal42"%string [(Field None 2%N None [])] 42%N []); (Variant "Mortal43"%string [(Field None 2%N None [])] 43%N []); (Variant "Mortal44"%string [(Field None 2%N None [])] 44%N []); (Variant "Mortal45"%string [(Field None 2%N None [])] 45%N []); (Variant "Mortal46"%string [(Field None 2%N None [])] 46%N []); (Variant "Mortal47"%string [(Field None 2%N None [])] 47%N []); (Variant "Mortal48"%string [(Field None 2%N None [])] 48%N []); (Variant "Mortal49"%string [(Field None 2%N None [])] 49%N []); (Variant "Mortal50"%string [(Field None 2%N None [])] 50%N []); (Variant "Mortal51"%string [(Field None 2%N None [])] 51%N []); (Variant "Mortal52"%string [(Field None 2%N None [])] 52%N []); (Variant "Mortal53"%string [(Field None 2%N None [])] 53%N []); (Variant "Mortal54"%string [(Field None 2%N None [])] 54%N []); (Variant "Mortal55"%string [(Field None 2%N None [])] 55%N []); (Variant "Mortal56"%string [(Field None 2%N None [])] 56%N []); (Variant "Mortal57"%string [(Field None 2%N None [])] 57%N []); (Variant "Mortal58"%string [(Field None 2%N None [])] 58%N []); (Variant "Mortal59"%string [(Field None 2%N None [])] 59%N []); (Variant "Mortal60"%string [(Field None 2%N None [])] 60%N []); (Variant "Mortal61"%string [(Field None 2%N None [])] 61%N []); (Variant "Mortal62"%string [(Field None 2%N None [])] 62%N []); (Variant "Mortal63"%string [(Field None 2%N None [])] 63%N []); (Variant "Mortal64"%string [(Field None 2%N None [])] 64%N []); (Variant "Mortal65"%string [(Field None 2%N None [])] 65%N []); (Variant "Mortal66"%string [(Field None 2%N None [])] 66%N []); (Variant "Mortal67"%string [(Field None 2%N None [])] 67%N []); (Variant "Mortal68"%string [(Field None 2%N None [])] 68%N []); (Variant "Mortal69"%string [(Field None 2%N None [])] 69%N []); (Variant "Mortal70"%string [(Field None 2%N None [])] 70%N []); (Variant "Mortal71"%string [(Field None 2%N None [])] 71%N []); (Variant "Mortal72"%string [(Field None 2%N None [])] 72%N []); (Variant "Mortal73"%string [(Field None 2%N None [])] 73%N []); (Variant "Mortal74"%string [(Field None 2%N None [])] 74%N []); (Variant "Mortal75"%string [(Field None 2%N None [])] 75%N []); (Variant "Mortal76"%string [(Field None 2%N None [])] 76%N []); (Variant "Mortal77"%string [(Field None 2%N None [])] 77%N []); (Variant "Mortal78"%string [(Field None 2%N None [])] 78%N []); (Variant "Mortal79"%string [(Field None 2%N None [])] 79%N []); (Variant "Mortal80"%string [(Field None 2%N None [])] 80%N []); (Variant "Mortal81"%string [(Field None 2%N None [])] 81%N []); (Variant "Mortal82"%string [(Field None 2%N None [])] 82%N []); (Variant "Mortal83"%string [(Field None 2%N None [])] 83%N []); (Variant "Mortal84"%string [(Field None 2%N None [])] 84%N []); (Variant "Mortal85"%string [(Field None 2%N None [])] 85%N []); (Variant "Mortal86"%string [(Field None 2%N None [])] 86%N []); (Variant "Mortal87"%string [(Field None 2%N None [])] 87%N []); (Variant "Mortal88"%string [(Field None 2%N None [])] 88%N []); (Variant "Mortal89"%string [(Field None 2%N None [])] 89%N []); (Variant "Mortal90"%string [(Field None 2%N None [])] 90%N []); (Variant "Mortal91"%string [(Field None 2%N None [])] 91%N []); (Variant "Mortal92"%string [(Field None 2%N None [])] 92%N []); (Variant "Mortal93"%string [(Field None 2%N None [])] 93%N []); (Variant "Mortal94"%string [(Field None 2%N None [])] 94%N []); (Variant "Mortal95"%string [(Field None 2%N None [])] 95%N []); (Variant "Mortal96"%string [(Field None 2%N None [])] 96%N []); (Variant "Mortal97"%string [(Field None 2%N None [])] 97%N []); (Variant "Mortal98"%string [(Field None 2%N None [])] 98%N []); (Variant "Mortal99"%string [(Field None 2%N None [])] 99%N []); (Variant "Mortal100"%string [(Field None 2%N None [])] 100%N []); (Variant "Mortal101"%string [(Field None 2%N None [])] 101%N []); (Variant "Mortal102"%string [(Field None 2%N None [])] 102%N []); (Variant "Mortal103"%string [(Field None 2%N None [])] 103%N []); (Variant "Mortal104"%string [(Field None 2%N None [])] 104%N []); (Variant "Mortal105"%string [(Field None 2%N None [])] 105%N []); (Variant "Mortal106"%string [(Field None 2%N None [])] 106%N []); (Variant "Mortal107"%string [(Field None 2%N None [])] 107%N []); (Variant "Mortal108"%string [(Field None 2%N None [])] 108%N []); (Variant "Mortal109"%string [(Field None 2%N None [])] 109%N []); (Variant "Mortal110"%string [(Field None 2%N None [])] 110%N []); (Variant "Mortal111"%string [(Field None 2%N None [])] 111%N []); (Variant "Mortal112"%string [(Field None 2%N None [])] 112%N []); (Variant "Mortal113"%string [(Field None 2%N None [])] 113%N []); (Variant "Mortal114"%string [(Field None 2%N None [])] 114%N []); (Variant "Mortal115"%string [(Field None 2%N None [])] 115%N []); (Variant "Mortal116"%string [(Field None 2%N None [])] 116%N []); (Variant "Mortal117"%string [(Field None 2%N None [])] 117%N []); (Variant "Mortal118"%string [(Field None 2%N None [])] 118%N []); (Variant "Mortal119"%string [(Field None 2%N None [])] 119%N []); (Variant "Mortal120"%string [(Field None 2%N None [])] 120%N []); (Variant "Mortal121"%string [(Field None 2%N None [])] 121%N []); (Variant "Mortal122"%string [(Field None 2%N None [])] 122%N []); (Variant "Mortal123"%string [(Field None 2%N None [])] 123%N []); (Variant "Mortal124"%string [(Field None 2%N None [])] 124%N []); (Variant "Mortal125"%string [(Field None 2%N None [])] 125%N []); (Variant "Mortal126"%string [(Field None 2%N None [])] 126%N []); (Variant "Mortal127"%string [(Field None 2%N None [])] 127%N []); (Variant "Mortal128"%string [(Field None 2%N None [])] 128%N []); (Variant "Mortal129"%string [(Field None 2%N None [])] 129%N []); (Variant "Mortal130"%string [(Field None 2%N None [])] 130%N []); (Variant "Mortal131"%string [(Field None 2%N None [])] 131%N []); (Variant "Mortal132"%string [(Field None 2%N None [])] 132%N []); (Variant "Mortal133"%string [(Field None 2%N None [])] 133%N []); (Variant "Mortal134"%string [(Field None 2%N None [])] 134%N []); (Variant "Mortal135"%string [(Field None 2%N None [])] 135%N []); (Variant "Mortal136"%string [(Field None 2%N None [])] 136%N []); (Variant "Mortal137"%string [(Field None 2%N None [])] 137%N []); (Variant "Mortal138"%string [(Field None 2%N None [])] 138%N []); (Variant "Mortal139"%string [(Field None 2%N None [])] 139%N []); (Variant "Mortal140"%string [(Field None 2%N None [])] 140%N []); (Variant "Mortal141"%string [(Field None 2%N None [])] 141%N []); (Variant "Mortal142"%string [(Field None 2%N None [])] 142%N []); (Variant "Mortal143"%string [(Field None 2%N None [])] 143%N []); (Variant "Mortal144"%string [(Field None 2%N None [])] 144%N []); (Variant "Mortal145"%string [(Field None 2%N None [])] 145%N []); (Variant "Mortal146"%string [(Field None 2%N None [])] 146%N []); (Variant "Mortal147"%string [(Field None 2%N None [])] 147%N []); (Variant "Mortal148"%string [(Field None 2%N None [])] 148%N []); (Variant "Mortal149"%string [(Field None 2%N None [])] 149%N []); (Variant "Mortal150"%string [(Field None 2%N None [])] 150%N []); (Variant "Mortal151"%string [(Field None 2%N None [])] 151%N []); (Variant "Mortal152"%string [(Field None 2%N None [])] 152%N []); (Variant "Mortal153"%string [(Field None 2%N None [])] 153%N []); (Variant "Mortal154"%string [(Field None 2%N None [])] 154%N []); (Variant "Mortal155"%string [(Field None 2%N None [])] 155%N []); (Variant "Mortal156"%string [(Field None 2%N None [])] 156%N []); (Variant "Mortal157"%string [(Field None 2%N None [])] 157%N []); (Variant "Mortal158"%string [(Field None 2%N None [])] 158%N []); (Variant "Mortal159"%string [(Field None 2%N None [])] 159%N []); (Variant "Mortal160"%string [(Field None 2%N None [])] 160%N []); (Variant "Mortal161"%string [(Field None 2%N None [])] 161%N []); (Variant "Mortal162"%string [(Field None 2%N None [])] 162%N []); (Variant "Mortal163"%string [(Field None 2%N None [])] 163%N []); (Variant "Mortal164"%string [(Field None 2%N None [])] 164%N []); (Variant "Mortal165"%string [(Field None 2%N None [])] 165%N []); (Variant "Mortal166"%string [(Field None 2%N None [])] 166%N []); (Variant "Mortal167"%string [(Field None 2%N None [])] 167%N []); (Variant "Mortal168"%string [(Field None 2%N None [])] 168%N []); (Variant "Mortal169"%string [(Field None 2%N None [])] 169%N []); (Variant "Mortal170"%string [(Field None 2%N None [])] 170%N []); (Variant "Mortal171"%string [(Field None 2%N None [])] 171%N []); (Variant "Mortal172"%string [(Field None 2%N None [])] 172%N []); (Variant "Mortal173"%string [(Field None 2%N None [])] 173%N []); (Variant "Mortal174"%string [(Field None 2%N None [])] 174%N []); (Variant "Mortal175"%string [(Field None 2%N None [])] 175%N []); (Variant "Mortal176"%string [(Field None 2%N None [])] 176%N []); (Variant "Mortal177"%string [(Field None 2%N None [])] 177%N []); (Variant "Mortal178"%string [(Field None 2%N None [])] 178%N []); (Variant "Mortal179"%string [(Field None 2%N None [])] 179%N []); (Variant "Mortal180"%string [(Field None 2%N None [])] 180%N []); (Variant "Mortal181"%string [(Field None 2%N None [])] 181%N []); (Variant "Mortal182"%string [(Field None 2%N None [])] 182%N []); (Variant "Mortal183"%string [(Field None 2%N None [])] 183%N []); (Variant "Mortal184"%string [(Field None 2%N None [])] 184%N []); (Variant "Mortal185"%string [(Field None 2%N None [])] 185%N []); (Variant "Mortal186"%string [(Field None 2%N None [])] 186%N []); (Variant "Mortal187"%string [(Field None 2%N None [])] 187%N []); (Variant "Mortal188"%string [(Field None 2%N None [])] 188%N []); (Variant "Mortal189"%string [(Field None 2%N None [])] 189%N []); (Variant "Mortal190"%string [(Field None 2%N None [])] 190%N []); (Variant "Mortal191"%string [(Field None 2%N None [])] 191%N []); (Variant "Mortal192"%string [(Field None 2%N None [])] 192%N []); (Variant "Mortal193"%string [(Field None 2%N None [])] 193%N []); (Variant "Mortal194"%string [(Field None 2%N None [])] 194%N []); (Variant "Mortal195"%string [(Field None 2%N None [])] 195%N []); (Variant "Mortal196"%string [(Field None 2%N None [])] 196%N []); (Variant "Mortal197"%string [(Field None 2%N None [])] 197%N []); (Variant "Mortal198"%string [(Field None 2%N None [])] 198%N []); (Variant "Mortal199"%string [(Field None 2%N None [])] 199%N []); (Variant "Mortal200"%string [(Field None 2%N None [])] 200%N []); (Variant "Mortal201"%string [(Field None 2%N None [])] 201%N []); (Variant "Mortal202"%string [(Field None 2%N None [])] 202%N []); (Variant "Mortal203"%string [(Field None 2%N None [])] 203%N []); (Variant "Mortal204"%string [(Field None 2%N None [])] 204%N []); (Variant "Mortal205"%string [(Field None 2%N None [])] 205%N []); (Variant "Mortal206"%string [(Field None 2%N None [])] 206%N []); (Variant "Mortal207"%string [(Field None 2%N None [])] 207%N []); (Variant "Mortal208"%string [(Field None 2%N None [])] 208%N []); (Variant "Mortal209"%string [(Field None 2%N None [])] 209%N []); (Variant "Mortal210"%string [(Field None 2%N None [])] 210%N []); (Variant "Mortal211"%string [(Field None 2%N None [])] 211%N []); (Variant "Mortal212"%string [(Field None 2%N None [])] 212%N []); (Variant "Mortal213"%string [(Field None 2%N None [])] 213%N []); (Variant "Mortal214"%string [(Field None 2%N None [])] 214%N []); (Variant "Mortal215"%string [(Field None 2%N None [])] 215%N []); (Variant "Mortal216"%string [(Field None 2%N None [])] 216%N []); (Variant "Mortal217"%string [(Field None 2%N None [])] 217%N []); (Variant "Mortal218"%string [(Field None 2%N None [])] 218%N []); (Variant "Mortal219"%string [(Field None 2%N None [])] 219%N []); (Variant "Mortal220"%string [(Field None 2%N None [])] 220%N []); (Variant "Mortal221"%string [(Field None 2%N None [])] 221%N []); (Variant "Mortal222"%string [(Field None 2%N None [])] 222%N []); (Variant "Mortal223"%string [(Field None 2%N None [])] 223%N []); (Variant "Mortal224"%string [(Field None 2%N None [])] 224%N []); (Variant "Mortal225"%string [(Field None 2%N None [])] 225%N []); (Variant "Mortal226"%string [(Field None 2%N None [])] 226%N []); (Variant "Mortal227"%string [(Field None 2%N None [])] 227%N []); (Variant "Mortal228"%string [(Field None 2%N None [])] 228%N []); (Variant "Mortal229"%string [(Field None 2%N None [])] 229%N []); (Variant "Mortal230"%string [(Field None 2%N None [])] 230%N []); (Variant "Mortal231"%string [(Field None 2%N None [])] 231%N []); (Variant "Mortal232"%string [(Field None 2%N None [])] 232%N []); (Variant "Mortal233"%string [(Field None 2%N None [])] 233%N []); (Variant "Mortal234"%string [(Field None 2%N None [])] 234%N []); (Variant "Mortal235"%string [(Field None 2%N None [])] 235%N []); (Variant "Mortal236"%string [(Field None 2%N None [])] 236%N []); (Variant "Mortal237"%string [(Field None 2%N None [])] 237%N []); (Variant "Mortal238"%string [(Field None 2%N None [])] 238%N []); (Variant "Mortal239"%string [(Field None 2%N None [])] 239%N []); (Variant "Mortal240"%string [(Field None 2%N None [])] 240%N []); (Variant "Mortal241"%string [(Field None 2%N None [])] 241%N []); (Variant "Mortal242"%string [(Field None 2%N None [])] 242%N []); (Variant "Mortal243"%string [(Field None 2%N None [])] 243%N []); (Variant "Mortal244"%string [(Field None 2%N None [])] 244%N []); (Variant "Mortal245"%string [(Field None 2%N None [])] 245%N []); (Variant "Mortal246"%string [(Field None 2%N None [])] 246%N []); (Variant "Mortal247"%string [(Field None 2%N None [])] 247%N []); (Variant "Mortal248"%string [(Field None 2%N None [])] 248%N []); (Variant "Mortal249"%string [(Field None 2%N None [])] 249%N []); (Variant "Mortal250"%string [(Field None 2%N None [])] 250%N []); (Variant "Mortal251"%string [(Field None 2%N None [])] 251%N []); (Variant "Mortal252"%string [(Field None 2%N None [])] 252%N []); (Variant "Mortal253"%string [(Field None 2%N None [])] 253%N []); (Variant "Mortal254"%string [(Field None 2%N None [])] 254%N []); (Variant "Mortal255"%string [(Field None 2%N None [])] 255%N [])]) []).
Definition md_t630 : ty := (Ty ["runtime_common"%string; "check_nonce"%string; "CheckNonce"%string] [("T"%string,None)] (TComposite [(Field (Some "nonce"%string) 77%N (Some "T::Nonce"%string) [])]) []).
Definition md_t631 : ty := (Ty ["frame_system"%string; "extensions"%string; "check_weight"%string; "CheckWeight"%string] [("T"%string,None)] (TComposite []) []).
Definition md_t632 : ty := (Ty ["module_evm"%string; "SetEvmOrigin"%string] [("T"%string,None)] (TComposite []) []).
Definition md_t633 : ty := (Ty ["module_transaction_payment"%string; "ChargeTransactionPayment"%string] [("T"%string,None)] (TComposite [(Field None 59%N (Some "PalletBalanceOf<T>"%string) [])]) []).
Definition md_t634 : ty := (Ty ["acala_runtime"%string; "StorageDepositPerByte"%string] [] (TComposite []) []).
Definition md_t635 : ty := (Ty ["acala_runtime"%string; "TxFeePerGas"%string] [] (TComposite []) []).
Definition md_t636 : ty := (Ty ["sp_runtime"%string; "generic"%string; "unchecked_extrinsic"%string; "UncheckedExtrinsic"%string] [("Address"%string,(Some 237%N)); ("Call"%string,(Some 229%N)); ("Signature"%string,(Some 637%N)); ("Extra"%string,(Some 623%N))] (TComposite [(Field None 13%N None [])]) []).
Definition md_t637 : ty := (Ty ["acala_primitives"%string; "signature"%string; "AcalaMultiSignature"%string] [] (TVariant [(Variant "Ed25519"%string [(Field None 249%N (Some "ed25519::Signature"%string) [])] 0%N []); (Variant "Sr25519"%string [(Field None 251%N (Some "sr25519::Signature"%string) [])] 1%N []); (Variant "Ecdsa"%string [(Field None 252%N (Some "ecdsa::Signature"%string) [])] 2%N []); (Variant "Ethereum"%string [(Field None 253%N (Some "[u8; 65]"%string) [])] 3%N []); (Variant "Eip1559"%string [(Field None 253%N (Some "[u8; 65]"%string) [])] 4%N []); (Variant "AcalaEip712"%string [(Field None 253%N (Some "[u8; 65]"%string) [])] 5%N [])]) []).
Definition md_types : list ty := [md_t0; md_t1; md_t2; md_t3; md_t4; md_t5; md_t6; md_t7; md_t8; md_t9; md_t10; md_t11; md_t12; md_t13; md_t14; md_t15; md_t16; md_t17; md_t18; md_t19; md_t20; md_t21; md_t22; md_t23; md_t24; md_t25; md_t26; md_t27; md_t28; md_t29; md_t30; md_t31; md_t32; md_t33; md_t34; md_t35; md_t36; md_t37; md_t38; md_t39; md_t40; md_t41; md_t42; md_t43; md_t44; md_t45; md_t46; md_t47; md_t48; md_t49; md_t50; md_t51; md_t52; md_t53; md_t54; md_t55; md_t56; md_t57; md_t58; md_t59; md_t60; md_t61; md_t62; md_t63; md_t64; md_t65; md_t66; md_t67; md_t68; md_t69; md_t70; md_t71; md_t72; md_t73; md_t74; md_t75; md_t76; md_t77; md_t78; md_t79; md_t80; md_t81; md_t82; md_t83; md_t84; md_t85; md_t86; md_t87; md_t88; md_t89; md_t90; md_t91; md_t92; md_t93; md_t94; md_t95; md_t96; md_t97; md_t98; md_t99; md_t100; md_t101; md_t102; md_t103; md_t104; md_t105; md_t106; md_t107; md_t108; md_t109; md_t110; md_t111; md_t112; md_t113; md_t114; md_t115; md_t116; md_t117; md_t118; md_t119; md_t120; md_t121; md_t122; md_t123; md_t124; md_t125; md_t126; md_t127; md_t128; md_t129; md_t130; md_t131; md_t132; md_t133; md_t134; md_t135; md_t136; md_t137; md_t138; md_t139; md_t140; md_t141; md_t142; md_t143; md_t144; md_t145; md_t146; md_t147; md_t148; md_t149; md_t150; md_t151; md_t152; md_t153; md_t154; md_t155; md_t156; md_t157; md_t158; md_t159; md_t160; md_t161; md_t162; md_t163; md_t164; md_t165; md_t166; md_t167; md_t168; md_t169; md_t170; md_t171; md_t172; md_t173; md_t174; md_t175; md_t176; md_t177; md_t178; md_t179; md_t180; md_t181; md_t182; md_t183; md_t184; md_t185; md_t186; md_t187; md_t188; md_t189; md_t190; md_t191; md_t192; md_t193; md_t194; md_t195; md_t196; md_t197; md_t198; md_t199; md_t200; md_t201; md_t202; md_t203; md_t204; md_t205; md_t206; md_t207; md_t208; md_t209; md_t210; md_t211; md_t212; md_t213; md_t214; md_t215; md_t216; md_t217; md_t218; md_t219; md_t220; md_t221; md_t222; md_t223; md_t224; md_t225; md_t226; md_t227; md_t228; md_t229; md_t230; md_t231; md_t232; md_t233; md_t234; md_t235; md_t236; md_t237; md_t238; md_t239; md_t240; md_t241; md_t242; md_t243; md_t244; md_t245; md_t246; md_t247; md_t248; md_t249; md_t250; md_t251; md_t252; md_t253; md_t254; md_t255; md_t256; md_t257; md_t258; md_t259; md_t260; md_t261; md_t262; md_t263; md_t264; md_t265; md_t266; md_t267; md_t268; md_t269; md_t270; md_t271; md_t272; md_t273; md_t274; md_t275; md_t276; md_t277; md_t278; md_t279; md_t280; md_t281; md_t282; md_t283; md_t284; md_t285; md_t286; md_t287; md_t288; md_t289; md_t290; md_t291; md_t292; md_t293; md_t294; md_t295; md_t296; md_t297; md_t298; md_t299; md_t300; md_t301; md_t302; md_t303; md_t304; md_t305; md_t306; md_t307; md_t308; md_t309; md_t310; md_t311; md_t312; md_t313; md_t314; md_t315; md_t316; md_t317; md_t318; md_t319; md_t320; md_t321; md_t322; md_t323; md_t324; md_t325; md_t326; md_t327; md_t328; md_t329; md_t330; md_t331; md_t332; md_t333; md_t334; md_t335; md_t336; md_t337; md_t338; md_t339; md_t340; md_t341; md_t342; md_t343; md_t344; md_t345; md_t346; md_t347; md_t348; md_t349; md_t350; md_t351; md_t352; md_t353; md_t354; md_t355; md_t356; md_t357; md_t358; md_t359; md_t360; md_t361; md_t362; md_t363; md_t364; md_t365; md_t366; md_t367; md_t368; md_t369; md_t370; md_t371; md_t372; md_t373; md_t374; md_t375; md_t376; md_t377; md_t378; md_t379; md_t380; md_t381; md_t382; md_t383; md_t384; md_t385; md_t386; md_t387; md_t388; md_t389; md_t390; md_t391; md_t392; md_t393; md_t394; md_t395; md_t396; md_t397; md_t398; md_t399; md_t400; md_t401; md_t402; md_t403; md_t404; md_t405; md_t406; md_t407; md_t408; md_t409; md_t410; md_t411; md_t412; md_t413; md_t414; md_t415; md_t416; md_t417; md_t418; md_t419; md_t420; md_t421; md_t422; md_t423; md_t424; md_t425; md_t426; md_t427; md_t428; md_t429; md_t430; md_t431; md_t432; md_t433; md_t434; md_t435; md_t436; md_t437; md_t438; md_t439; md_t440; md_t441; md_t442; md_t443; md_t444; md_t445; md_t446; md_t447; md_t448; md_t449; md_t450; md_t451; md_t452; md_t453; md_t454; md_t455; md_t456; md_t457; md_t458; md_t459; md_t460; md_t461; md_t462; md_t463; md_t464; md_t465; md_t466; md_t467; md_t468; md_t469; md_t470; md_t471; md_t472; md_t473; md_t474; md_t475; md_t476; md_t477; md_t478; md_t479; md_t480; md_t481; md_t482; md_t483; md_t484; md_t485; md_t486; md_t487; md_t488; md_t489; md_t490; md_t491; md_t492; md_t493; md_t494; md_t495; md_t496; md_t497; md_t498; md_t499; md_t500; md_t501; md_t502; md_t503; md_t504; md_t505; md_t506; md_t507; md_t508; md_t509; md_t510; md_t511; md_t512; md_t513; md_t514; md_t515; md_t516; md_t517; md_t518; md_t519; md_t520; md_t521; md_t522; md_t523; md_t524; md_t525; md_t526; md_t527; md_t528; md_t529; md_t530; md_t531; md_t532; md_t533; md_t534; md_t535; md_t536; md_t537; md_t538; md_t539; md_t540; md_t541; md_t542; md_t543; md_t544; md_t545; md_t546; md_t547; md_t548; md_t549; md_t550; md_t551; md_t552; md_t553; md_t554; md_t555; md_t556; md_t557; md_t558; md_t559; md_t560; md_t561; md_t562; md_t563; md_t564; md_t565; md_t566; md_t567; md_t568; md_t569; md_t570; md_t571; md_t572; md_t573; md_t574; md_t575; md_t576; md_t577; md_t578; md_t579; md_t580; md_t581; md_t582; md_t583; md_t584; md_t585; md_t586; md_t587; md_t588; md_t589; md_t590; md_t591; md_t592; md_t593; md_t594; md_t595; md_t596; md_t597; md_t598; md_t599; md_t600; md_t601; md_t602; md_t603; md_t604; md_t605; md_t606; md_t607; md_t608; md_t609; md_t610; md_t611; md_t612; md_t613; md_t614; md_t615; md_t616; md_t617; md_t618; md_t619; md_t620; md_t621; md_t622; md_t623; md_t624; md_t625; md_t626; md_t627; md_t628; md_t629; md_t630; md_t631; md_t632; md_t633; md_t634; md_t635; md_t636; md_t637].
Definition md := metadata_of_v14 (MetadataV14 md_types [(Pallet "System"%string [(Constant "Version"%string [20%N; 97%N; 99%N; 97%N; 108%N; 97%N; 20%N; 97%N; 99%N; 97%N; 108%N; 97%N; 1%N; 0%N; 0%N; 0%N; 152%N; 8%N; 0%N; 0%N; 0%N; 0%N; 0%N; 0%N; 52%N; 223%N; 106%N; 203%N; 104%N; 153%N; 7%N; 96%N; 155%N; 4%N; 0%N; 0%N; 0%N; 55%N; 227%N; 151%N; 252%N; 124%N; 145%N; 245%N; 228%N; 2%N; 0%N; 0%N; 0%N; 64%N; 254%N; 58%N; 212%N; 1%N; 248%N; 149%N; 154%N; 6%N; 0%N; 0%N; 0%N; 210%N; 188%N; 152%N; 151%N; 238%N; 208%N; 143%N; 21%N; 3%N; 0%N; 0%N; 0%N; 247%N; 139%N; 39%N; 139%N; 229%N; 63%N; 69%N; 76%N; 2%N; 0%N; 0%N; 0%N; 221%N; 113%N; 141%N; 92%N; 197%N; 50%N; 98%N; 212%N; 1%N; 0%N; 0%N; 0%N; 171%N; 60%N; 5%N; 114%N; 41%N; 31%N; 235%N; 139%N; 1%N; 0%N; 0%N; 0%N; 188%N; 157%N; 137%N; 144%N; 79%N; 91%N; 146%N; 63%N; 1%N; 0%N; 0%N; 0%N; 55%N; 200%N; 187%N; 19%N; 80%N; 169%N; 162%N; 168%N; 4%N; 0%N; 0%N; 0%N; 110%N; 249%N; 83%N; 0%N; 75%N; 163%N; 14%N; 89%N; 1%N; 0%N; 0%N; 0%N; 149%N; 94%N; 22%N; 142%N; 12%N; 251%N; 52%N; 9%N; 1%N; 0%N; 0%N; 0%N; 227%N; 223%N; 63%N; 42%N; 168%N; 165%N; 204%N; 87%N; 2%N; 0%N; 0%N; 0%N; 234%N; 147%N; 227%N; 241%N; 111%N; 61%N; 105%N; 98%N; 2%N; 0%N; 0%N; 0%N; 3%N; 0%N; 0%N; 0%N; 0%N] 219%N)]); (Pallet "Timestamp"%string []); (Pallet "Scheduler"%string []); (Pallet "Utility"%string []); (Pallet "Multisig"%string []); (Pallet "Proxy"%string []); (Pallet "TransactionPause"%string []); (Pallet "IdleScheduler"%string []); (Pallet "Preimage"%string []); (Pallet "Balances"%string []); (Pallet "Tokens"%string []); (Pallet "Currencies"%string []); (Pallet "Vesting"%string []); (Pallet "TransactionPayment"%string []); (Pallet "Treasury"%string []); (Pallet "Bounties"%string []); (Pallet "Tips"%string []); (Pallet "ParachainInfo"%string []); (Pallet "Authorship"%string []); (Pallet "CollatorSelection"%string []); (Pallet "Session"%string []); (Pallet "Aura"%string []); (Pallet "AuraExt"%string []); (Pallet "SessionManager"%string []); (Pallet "XcmpQueue"%string []); (Pallet "PolkadotXcm"%string []); (Pallet "CumulusXcm"%string []); (Pallet "DmpQueue"%string []); (Pallet "XTokens"%string []); (Pallet "UnknownTokens"%string []); (Pallet "OrmlXcm"%string []); (Pallet "Authority"%string []); (Pallet "GeneralCouncil"%string []); (Pallet "GeneralCouncilMembership"%string []); (Pallet "FinancialCouncil"%string []); (Pallet "FinancialCouncilMembership"%string []); (Pallet "HomaCouncil"%string []); (Pallet "HomaCouncilMembership"%string []); (Pallet "TechnicalCommittee"%string []); (Pallet "TechnicalCommitteeMembership"%string []); (Pallet "Democracy"%string []); (Pallet "AcalaOracle"%string []); (Pallet "OperatorMembershipAcala"%string []); (Pallet "Auction"%string []); (Pallet "Rewards"%string []); (Pallet "OrmlNFT"%string []); (Pallet "Prices"%string []); (Pallet "Dex"%string []); (Pallet "DexOracle"%string []); (Pallet "AggregatedDex"%string []); (Pallet "Earning"%string []); (Pallet "AuctionManager"%string []); (Pallet "Loans"%string []); (Pallet "Honzon"%string []); (Pallet "CdpTreasury"%string []); (Pallet "CdpEngine"%string []); (Pallet "EmergencyShutdown"%string []); (Pallet "Homa"%string []); (Pallet "XcmInterface"%string []); (Pallet "Incentives"%string []); (Pallet "NFT"%string []); (Pallet "AssetRegistry"%string []); (Pallet "LiquidCrowdloan"%string []); (Pallet "EVM"%string []); (Pallet "EVMBridge"%string []); (Pallet "EvmAccounts"%string []); (Pallet "StableAsset"%string []); (Pallet "ParachainSystem"%string []); (Pallet "Sudo"%string [])] 622%N 4%N [(ExtMeta "CheckNonZeroSender"%string 624%N 34%N); (ExtMeta "CheckSpecVersion"%string 625%N 4%N); (ExtMeta "CheckTxVersion"%string 626%N 4%N); (ExtMeta "CheckGenesis"%string 627%N 12%N); (ExtMeta "CheckMortality"%string 628%N 12%N); (ExtMeta "CheckNonce"%string 630%N 34%N); (ExtMeta "CheckWeight"%string 631%N 34%N); (ExtMeta "SetEvmOrigin"%string 632%N 34%N); (ExtMeta "ChargeTransactionPayment"%string 633%N 34%N)]).
Definition nv := match m_spec_name_version md with inl x => x | inr _ => SpecNameVersion "" [] end.
Example tr_7_call :
 match (parse_transaction (slice_buffer (unhex "a00a0304a84b841c4d9d1a179be03bb31131c14ebf6ce22233158139ae28a3dfaac5fe1560a5e9e05cd5038d248ed73e0d9808000003000000fc41b9bd8ef8fe53d58c7ea67c794c7ec9a73daf05e6d54b14ff6342c99ba64cfc41b9bd8ef8fe53d58c7ea67c794c7ec9a73daf05e6d54b14ff6342c99ba64c"%string)) md (Some (unhex "fc41b9bd8ef8fe53d58c7ea67c794c7ec9a73daf05e6d54b14ff6342c99ba64c")) 0 tt) with (Ok (TransactionParsed (inl c) x), _, _) => show_all bs (card_call b58 idn (ShortSpecs 10%N 12%N "ACA") (string_of_bytes (spec_name nv)) c 0) | _ => "FAIL"%string end
 = "Pallet: Balances
  Call: transfer_keep_alive
    Field Name: dest
      Enum
        Enum Variant Name: Address20
          Sequence u8: a84b841c4d9d1a179be03bb31131c14ebf6ce222
    Field Name: value
      Balance: 123456789012345.678901234567890123456789 TACA"%string.
Proof. vm_compute. reflexivity. Qed.
Example tr_7_extensions :
 match (parse_transaction (slice_buffer (unhex "a00a0304a84b841c4d9d1a179be03bb31131c14ebf6ce22233158139ae28a3dfaac5fe1560a5e9e05cd5038d248ed73e0d9808000003000000fc41b9bd8ef8fe53d58c7ea67c794c7ec9a73daf05e6d54b14ff6342c99ba64cfc41b9bd8ef8fe53d58c7ea67c794c7ec9a73daf05e6d54b14ff6342c99ba64c"%string)) md (Some (unhex "fc41b9bd8ef8fe53d58c7ea67c794c7ec9a73daf05e6d54b14ff6342c99ba64c")) 0 tt) with (Ok (TransactionParsed (inl c) x), _, _) => show_all bs (card_extensions b58 idn (ShortSpecs 10%N 12%N "ACA") (string_of_bytes (spec_name nv)) x) | _ => "FAIL"%string end
 = "Era: Mortal, phase: 61, period: 64
Struct: 1 field(s)
  Field Name: nonce
    Nonce: 2339
Tip: 55.555555 uACA
Chain: acala2200
Tx Version: 3
Genesis Hash: fc41b9bd8ef8fe53d58c7ea67c794c7ec9a73daf05e6d54b14ff6342c99ba64c
Block Hash: fc41b9bd8ef8fe53d58c7ea67c794c7ec9a73daf05e6d54b14ff6342c99ba64c"%string.
Proof. vm_compute. reflexivity. Qed.
