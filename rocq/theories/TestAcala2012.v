(** GENERATED from /repo/for_tests/acala2012 and /repo/src/tests.rs: the tests of the
    repository on this metadata replayed on the model (tests of the fidelity of the
    model, not proofs of properties). Identicons are not compared. *)
From Verif Require Import Base Compact Types Indicators Decode Sign Meta Balance Cards Unchecked.
From Verif Require Address.
Definition b58 := Address.address.
Definition idn (b : bytes) : bytes := [].
Definition bs := Address.bits_text.
Fixpoint unhex (s : string) : bytes :=
  let v c := let n := N_of_ascii c in if (n <? 58)%N then (n - 48)%N else (n - 87)%N in
  match s with String a (String b r) => (16 * v a + v b)%N :: unhex r | _ => [] end.
Definition md_t0 : ty := (Ty ["sp_core"%string; "crypto"%string; "AccountId32"%string] [] (TComposite [(Field None 1%N (Some "[u8; 32]"%string) [])]) []).
Definition md_t1 : ty := (Ty [] [] (TArray 32%N 2%N) []).
Definition md_t2 : ty := (Ty [] [] (TPrimitive (PrU U8)) []).
Definition md_t3 : ty := (Ty ["frame_system"%string; "AccountInfo"%string] [("Index"%string,(Some 4%N)); ("AccountData"%string,(Some 5%N))] (TComposite [(Field (Some "nonce"%string) 4%N (Some "Index"%string) []); (Field (Some "consumers"%string) 4%N (Some "RefCount"%string) []); (Field (Some "providers"%string) 4%N (Some "RefCount"%string) []); (Field (Some "sufficients"%string) 4%N (Some "RefCount"%string) []); (Field (Some "data"%string) 5%N (Some "AccountData"%string) [])]) []).
Definition md_t4 : ty := (Ty [] [] (TPrimitive (PrU U32)) []).
Definition md_t5 : ty := (Ty ["pallet_balances"%string; "AccountData"%string] [("Balance"%string,(Some 6%N))] (TComposite [(Field (Some "free"%string) 6%N (Some "Balance"%string) []); (Field (Some "reserved"%string) 6%N (Some "Balance"%string) []); (Field (Some "misc_frozen"%string) 6%N (Some "Balance"%string) []); (Field (Some "fee_frozen"%string) 6%N (Some "Balance"%string) [])]) []).
Definition md_t6 : ty := (Ty [] [] (TPrimitive (PrU U128)) []).
Definition md_t7 : ty := (Ty ["frame_support"%string; "weights"%string; "PerDispatchClass"%string] [("T"%string,(Some 8%N))] (TComposite [(Field (Some "normal"%string) 8%N (Some "T"%string) []); (Field (Some "operational"%string) 8%N (Some "T"%string) []); (Field (Some "mandatory"%string) 8%N (Some "T"%string) [])]) []).
Definition md_t8 : ty := (Ty [] [] (TPrimitive (PrU U64)) []).
Definition md_t9 : ty := (Ty ["primitive_types"%string; "H256"%string] [] (TComposite [(Field None 1%N (Some "[u8; 32]"%string) [])]) []).
Definition md_t10 : ty := (Ty [] [] (TSequence 2%N) []).
Definition md_t11 : ty := (Ty ["sp_runtime"%string; "generic"%string; "digest"%string; "Digest"%string] [] (TComposite [(Field (Some "logs"%string) 12%N (Some "Vec<DigestItem>"%string) [])]) []).
Definition md_t12 : ty := (Ty [] [] (TSequence 13%N) []).
Definition md_t13 : ty := (Ty ["sp_runtime"%string; "generic"%string; "digest"%string; "DigestItem"%string] [] (TVariant [(Variant "PreRuntime"%string [(Field None 14%N (Some "ConsensusEngineId"%string) []); (Field None 10%N (Some "Vec<u8>"%string) [])] 6%N []); (Variant "Consensus"%string [(Field None 14%N (Some "ConsensusEngineId"%string) []); (Field None 10%N (Some "Vec<u8>"%string) [])] 4%N []); (Variant "Seal"%string [(Field None 14%N (Some "ConsensusEngineId"%string) []); (Field None 10%N (Some "Vec<u8>"%string) [])] 5%N []); (Variant "Other"%string [(Field None 10%N (Some "Vec<u8>"%string) [])] 0%N []); (Variant "RuntimeEnvironmentUpdated"%string [] 8%N [])]) []).
Definition md_t14 : ty := (Ty [] [] (TArray 4%N 2%N) []).
Definition md_t15 : ty := (Ty [] [] (TSequence 16%N) []).
Definition md_t16 : ty := (Ty ["frame_system"%string; "EventRecord"%string] [("E"%string,(Some 17%N)); ("T"%string,(Some 9%N))] (TComposite [(Field (Some "phase"%string) 169%N (Some "Phase"%string) []); (Field (Some "event"%string) 17%N (Some "E"%string) []); (Field (Some "topics"%string) 159%N (Some "Vec<T>"%string) [])]) []).
Definition md_t17 : ty := (Ty ["acala_runtime"%string; "Event"%string] [] (TVariant [(Variant "System"%string [(Field None 18%N (Some "frame_system::Event<Runtime>"%string) [])] 0%N []); (Variant "Scheduler"%string [(Field None 25%N (Some "pallet_scheduler::Event<Runtime>"%string) [])] 2%N []); (Variant "Utility"%string [(Field None 30%N (Some "pallet_utility::Event"%string) [])] 3%N []); (Variant "Multisig"%string [(Field None 31%N (Some "pallet_multisig::Event<Runtime>"%string) [])] 4%N []); (Variant "Proxy"%string [(Field None 33%N (Some "pallet_proxy::Event<Runtime>"%string) [])] 5%N []); (Variant "TransactionPause"%string [(Field None 36%N (Some "module_transaction_pause::Event<Runtime>"%string) [])] 6%N []); (Variant "IdleScheduler"%string [(Field None 37%N (Some "module_idle_scheduler::Event<Runtime>"%string) [])] 7%N []); (Variant "Balances"%string [(Field None 38%N (Some "pallet_balances::Event<Runtime>"%string) [])] 10%N []); (Variant "Tokens"%string [(Field None 40%N (Some "orml_tokens::Event<Runtime>"%string) [])] 11%N []); (Variant "Currencies"%string [(Field None 46%N (Some "module_currencies::Event<Runtime>"%string) [])] 12%N []); (Variant "Vesting"%string [(Field None 48%N (Some "orml_vesting::Event<Runtime>"%string) [])] 13%N []); (Variant "Treasury"%string [(Field None 51%N (Some "pallet_treasury::Event<Runtime>"%string) [])] 20%N []); (Variant "Bounties"%string [(Field None 52%N (Some "pallet_bounties::Event<Runtime>"%string) [])] 21%N []); (Variant "Tips"%string [(Field None 53%N (Some "pallet_tips::Event<Runtime>"%string) [])] 22%N []); (Variant "ParachainSystem"%string [(Field None 54%N (Some "cumulus_pallet_parachain_system::Event<Runtime>"%string) [])] 30%N []); (Variant "CollatorSelection"%string [(Field None 55%N (Some "module_collator_selection::Event<Runtime>"%string) [])] 41%N []); (Variant "Session"%string [(Field None 57%N (Some "pallet_session::Event"%string) [])] 42%N []); (Variant "SessionManager"%string [(Field None 58%N (Some "module_session_manager::Event<Runtime>"%string) [])] 45%N []); (Variant "XcmpQueue"%string [(Field None 59%N (Some "cumulus_pallet_xcmp_queue::Event<Runtime>"%string) [])] 50%N []); (Variant "PolkadotXcm"%string [(Field None 62%N (Some "pallet_xcm::Event<Runtime>"%string) [])] 51%N []); (Variant "CumulusXcm"%string [(Field None 99%N (Some "cumulus_pallet_xcm::Event<Runtime>"%string) [])] 52%N []); (Variant "DmpQueue"%string [(Field None 100%N (Some "cumulus_pallet_dmp_queue::Event<Runtime>"%string) [])] 53%N []); (Variant "XTokens"%string [(Field None 101%N (Some "orml_xtokens::Event<Runtime>"%string) [])] 54%N []); (Variant "UnknownTokens"%string [(Field None 102%N (Some "orml_unknown_tokens::Event"%string) [])] 55%N []); (Variant "OrmlXcm"%string [(Field None 103%N (Some "orml_xcm::Event<Runtime>"%string) [])] 56%N []); (Variant "Authority"%string [(Field None 104%N (Some "orml_authority::Event<Runtime>"%string) [])] 60%N []); (Variant "GeneralCouncil"%string [(Field None 117%N (Some "pallet_collective::Event<Runtime, pallet_collective::Instance1>"%string) [])] 61%N []); (Variant "GeneralCouncilMembership"%string [(Field None 119%N (Some "pallet_membership::Event<Runtime, pallet_membership::Instance1>"%string) [])] 62%N []); (Variant "FinancialCouncil"%string [(Field None 120%N (Some "pallet_collective::Event<Runtime, pallet_collective::Instance2>"%string) [])] 63%N []); (Variant "FinancialCouncilMembership"%string [(Field None 121%N (Some "pallet_membership::Event<Runtime, pallet_membership::Instance2>"%string) [])] 64%N []); (Variant "HomaCouncil"%string [(Field None 122%N (Some "pallet_collective::Event<Runtime, pallet_collective::Instance3>"%string) [])] 65%N []); (Variant "HomaCouncilMembership"%string [(Field None 123%N (Some "pallet_membership::Event<Runtime, pallet_membership::Instance3>"%string) [])] 66%N []); (Variant "TechnicalCommittee"%string [(Field None 124%N (Some "pallet_collective::Event<Runtime, pallet_collective::Instance4>"%string) [])] 67%N []); (Variant "TechnicalCommitteeMembership"%string [(Field None 125%N (Some "pallet_membership::Event<Runtime, pallet_membership::Instance4>"%string) [])] 68%N []); (Variant "Democracy"%string [(Field None 126%N (Some "pallet_democracy::Event<Runtime>"%string) [])] 69%N []); (Variant "AcalaOracle"%string [(Field None 128%N (Some "orml_oracle::Event<Runtime, orml_oracle::Instance1>"%string) [])] 70%N []); (Variant "OperatorMembershipAcala"%string [(Field None 132%N (Some "pallet_membership::Event<Runtime, pallet_membership::Instance5>"%string) [])] 71%N []); (Variant "Auction"%string [(Field None 133%N (Some "orml_auction::Event<Runtime>"%string) [])] 80%N []); (Variant "Prices"%string [(Field None 134%N (Some "module_prices::Event<Runtime>"%string) [])] 90%N []); (Variant "Dex"%string [(Field None 135%N (Some "module_dex::Event<Runtime>"%string) [])] 91%N []); (Variant "AuctionManager"%string [(Field None 139%N (Some "module_auction_manager::Event<Runtime>"%string) [])] 100%N []); (Variant "Loans"%string [(Field None 140%N (Some "module_loans::Event<Runtime>"%string) [])] 101%N []); (Variant "Honzon"%string [(Field None 141%N (Some "module_honzon::Event<Runtime>"%string) [])] 102%N []); (Variant "CdpTreasury"%string [(Field None 142%N (Some "module_cdp_treasury::Event<Runtime>"%string) [])] 103%N []); (Variant "CdpEngine"%string [(Field None 143%N (Some "module_cdp_engine::Event<Runtime>"%string) [])] 104%N []); (Variant "EmergencyShutdown"%string [(Field None 146%N (Some "module_emergency_shutdown::Event<Runtime>"%string) [])] 105%N []); (Variant "HomaLite"%string [(Field None 149%N (Some "module_homa_lite::Event<Runtime>"%string) [])] 115%N []); (Variant "Incentives"%string [(Field None 151%N (Some "module_incentives::Event<Runtime>"%string) [])] 120%N []); (Variant "NFT"%string [(Field None 153%N (Some "module_nft::Event<Runtime>"%string) [])] 121%N []); (Variant "AssetRegistry"%string [(Field None 154%N (Some "module_asset_registry::Event<Runtime>"%string) [])] 122%N []); (Variant "EVM"%string [(Field None 156%N (Some "module_evm::Event<Runtime>"%string) [])] 130%N []); (Variant "EvmAccounts"%string [(Field None 167%N (Some "module_evm_accounts::Event<Runtime>"%string) [])] 132%N []); (Variant "Sudo"%string [(Field None 168%N (Some "pallet_sudo::Event<Runtime>"%string) [])] 255%N [])]) []).
Definition md_t18 : ty := (Ty ["frame_system"%string; "pallet"%string; "Event"%string] [("T"%string,None)] (TVariant [(Variant "ExtrinsicSuccess"%string [(Field None 19%N (Some "DispatchInfo"%string) [])] 0%N ["An extrinsic completed successfully. \[info\]"%string]); (Variant "ExtrinsicFailed"%string [(Field None 22%N (Some "DispatchError"%string) []); (Field None 19%N (Some "DispatchInfo"%string) [])] 1%N ["An extrinsic failed. \[error, info\]"%string]); (Variant "CodeUpdated"%string [] 2%N ["`:code` was updated."%string]); (Variant "NewAccount"%string [(Field None 0%N (Some "T::AccountId"%string) [])] 3%N ["A new \[account\] was created."%string]); (Variant "KilledAccount"%string [(Field None 0%N (Some "T::AccountId"%string) [])] 4%N ["An \[account\] was reaped."%string]); (Variant "Remarked"%string [(Field None 0%N (Some "T::AccountId"%string) []); (Field None 9%N (Some "T::Hash"%string) [])] 5%N ["On on-chain remark happened. \[origin, remark_hash\]"%string])]) ["Event for the System pallet."%string]).
Definition md_t19 : ty := (Ty ["frame_support"%string; "weights"%string; "DispatchInfo"%string] [] (TComposite [(Field (Some "weight"%string) 8%N (Some "Weight"%string) []); (Field (Some "class"%string) 20%N (Some "DispatchClass"%string) []); (Field (Some "pays_fee"%string) 21%N (Some "Pays"%string) [])]) []).
Definition md_t20 : ty := (Ty ["frame_support"%string; "weights"%string; "DispatchClass"%string] [] (TVariant [(Variant "Normal"%string [] 0%N []); (Variant "Operational"%string [] 1%N []); (Variant "Mandatory"%string [] 2%N [])]) []).
Definition md_t21 : ty := (Ty ["frame_support"%string; "weights"%string; "Pays"%string] [] (TVariant [(Variant "Yes"%string [] 0%N []); (Variant "No"%string [] 1%N [])]) []).
Definition md_t22 : ty := (Ty ["sp_runtime"%string; "DispatchError"%string] [] (TVariant [(Variant "Other"%string [] 0%N []); (Variant "CannotLookup"%string [] 1%N []); (Variant "BadOrigin"%string [] 2%N []); (Variant "Module"%string [(Field (Some "index"%string) 2%N (Some "u8"%string) []); (Field (Some "error"%string) 2%N (Some "u8"%string) [])] 3%N []); (Variant "ConsumerRemaining"%string [] 4%N []); (Variant "NoProviders"%string [] 5%N []); (Variant "Token"%string [(Field None 23%N (Some "TokenError"%string) [])] 6%N []); (Variant "Arithmetic"%string [(Field None 24%N (Some "ArithmeticError"%string) [])] 7%N [])]) []).
Definition md_t23 : ty := (Ty ["sp_runtime"%string; "TokenError"%string] [] (TVariant [(Variant "NoFunds"%string [] 0%N []); (Variant "WouldDie"%string [] 1%N []); (Variant "BelowMinimum"%string [] 2%N []); (Variant "CannotCreate"%string [] 3%N []); (Variant "UnknownAsset"%string [] 4%N []); (Variant "Frozen"%string [] 5%N []); (Variant "Unsupported"%string [] 6%N [])]) []).
Definition md_t24 : ty := (Ty ["sp_runtime"%string; "ArithmeticError"%string] [] (TVariant [(Variant "Underflow"%string [] 0%N []); (Variant "Overflow"%string [] 1%N []); (Variant "DivisionByZero"%string [] 2%N [])]) []).
Definition md_t25 : ty := (Ty ["pallet_scheduler"%string; "pallet"%string; "Event"%string] [("T"%string,None)] (TVariant [(Variant "Scheduled"%string [(Field None 4%N (Some "T::BlockNumber"%string) []); (Field None 4%N (Some "u32"%string) [])] 0%N ["Scheduled some task. \[when, index\]"%string]); (Variant "Canceled"%string [(Field None 4%N (Some "T::BlockNumber"%string) []); (Field None 4%N (Some "u32"%string) [])] 1%N ["Canceled some task. \[when, index\]"%string]); (Variant "Dispatched"%string [(Field None 26%N (Some "TaskAddress<T::BlockNumber>"%string) []); (Field None 27%N (Some "Option<Vec<u8>>"%string) []); (Field None 28%N (Some "DispatchResult"%string) [])] 2%N ["Dispatched some task. \[task, id, result\]"%string])]) ["Events type."%string]).
Definition md_t26 : ty := (Ty [] [] (TTuple [4%N; 4%N]) []).
Definition md_t27 : ty := (Ty ["Option"%string] [("T"%string,(Some 10%N))] (TVariant [(Variant "None"%string [] 0%N []); (Variant "Some"%string [(Field None 10%N None [])] 1%N [])]) []).
Definition md_t28 : ty := (Ty ["Result"%string] [("T"%string,(Some 29%N)); ("E"%string,(Some 22%N))] (TVariant [(Variant "Ok"%string [(Field None 29%N None [])] 0%N []); (Variant "Err"%string [(Field None 22%N None [])] 1%N [])]) []).
Definition md_t29 : ty := (Ty [] [] (TTuple []) []).
Definition md_t30 : ty := (Ty ["pallet_utility"%string; "pallet"%string; "Event"%string] [] (TVariant [(Variant "BatchInterrupted"%string [(Field (Some "index"%string) 4%N (Some "u32"%string) []); (Field (Some "error"%string) 22%N (Some "DispatchError"%string) [])] 0%N ["Batch of dispatches did not complete fully. Index of first failing dispatch given, as"%string; "well as the error."%string]); (Variant "BatchCompleted"%string [] 1%N ["Batch of dispatches completed fully with no error."%string]); (Variant "ItemCompleted"%string [] 2%N ["A single item within a Batch of dispatches has completed with no error."%string]); (Variant "DispatchedAs"%string [(Field None 28%N (Some "DispatchResult"%string) [])] 3%N ["A call was dispatched. \[result\]"%string])]) ["
			The [event](https://docs.substrate.io/v3/runtime/events-and-errors) emitted
			by this pallet.
			"%string]).
Definition md_t31 : ty := (Ty ["pallet_multisig"%string; "pallet"%string; "Event"%string] [("T"%string,None)] (TVariant [(Variant "NewMultisig"%string [(Field (Some "approving"%string) 0%N (Some "T::AccountId"%string) []); (Field (Some "multisig"%string) 0%N (Some "T::AccountId"%string) []); (Field (Some "call_hash"%string) 1%N (Some "CallHash"%string) [])] 0%N ["A new multisig operation has begun."%string]); (Variant "MultisigApproval"%string [(Field (Some "approving"%string) 0%N (Some "T::AccountId"%string) []); (Field (Some "timepoint"%string) 32%N (Some "Timepoint<T::BlockNumber>"%string) []); (Field (Some "multisig"%string) 0%N (Some "T::AccountId"%string) []); (Field (Some "call_hash"%string) 1%N (Some "CallHash"%string) [])] 1%N ["A multisig operation has been approved by someone."%string]); (Variant "MultisigExecuted"%string [(Field (Some "approving"%string) 0%N (Some "T::AccountId"%string) []); (Field (Some "timepoint"%string) 32%N (Some "Timepoint<T::BlockNumber>"%string) []); (Field (Some "multisig"%string) 0%N (Some "T::AccountId"%string) []); (Field (Some "call_hash"%string) 1%N (Some "CallHash"%string) []); (Field (Some "result"%string) 28%N (Some "DispatchResult"%string) [])] 2%N ["A multisig operation has been executed."%string]); (Variant "MultisigCancelled"%string [(Field (Some "cancelling"%string) 0%N (Some "T::AccountId"%string) []); (Field (Some "timepoint"%string) 32%N (Some "Timepoint<T::BlockNumber>"%string) []); (Field (Some "multisig"%string) 0%N (Some "T::AccountId"%string) []); (Field (Some "call_hash"%string) 1%N (Some "CallHash"%string) [])] 3%N ["A multisig operation has been cancelled."%string])]) ["
			The [event](https://docs.substrate.io/v3/runtime/events-and-errors) emitted
			by this pallet.
			"%string]).
Definition md_t32 : ty := (Ty ["pallet_multisig"%string; "Timepoint"%string] [("BlockNumber"%string,(Some 4%N))] (TComposite [(Field (Some "height"%string) 4%N (Some "BlockNumber"%string) []); (Field (Some "index"%string) 4%N (Some "u32"%string) [])]) []).
Definition md_t33 : ty := (Ty ["pallet_proxy"%string; "pallet"%string; "Event"%string] [("T"%string,None)] (TVariant [(Variant "ProxyExecuted"%string [(Field (Some "result"%string) 28%N (Some "DispatchResult"%string) [])] 0%N ["A proxy was executed correctly, with the given."%string]); (Variant "AnonymousCreated"%string [(Field (Some "anonymous"%string) 0%N (Some "T::AccountId"%string) []); (Field (Some "who"%string) 0%N (Some "T::AccountId"%string) []); (Field (Some "proxy_type"%string) 34%N (Some "T::ProxyType"%string) []); (Field (Some "disambiguation_index"%string) 35%N (Some "u16"%string) [])] 1%N ["Anonymous account has been created by new proxy with given"%string; "disambiguation index and proxy type."%string]); (Variant "Announced"%string [(Field (Some "real"%string) 0%N (Some "T::AccountId"%string) []); (Field (Some "proxy"%string) 0%N (Some "T::AccountId"%string) []); (Field (Some "call_hash"%string) 9%N (Some "CallHashOf<T>"%string) [])] 2%N ["An announcement was placed to make a call in the future."%string]); (Variant "ProxyAdded"%string [(Field (Some "delegator"%string) 0%N (Some "T::AccountId"%string) []); (Field (Some "delegatee"%string) 0%N (Some "T::AccountId"%string) []); (Field (Some "proxy_type"%string) 34%N (Some "T::ProxyType"%string) []); (Field (Some "delay"%string) 4%N (Some "T::BlockNumber"%string) [])] 3%N ["A proxy was added."%string])]) ["
			The [event](https://docs.substrate.io/v3/runtime/events-and-errors) emitted
			by this pallet.
			"%string]).
Definition md_t34 : ty := (Ty ["runtime_common"%string; "ProxyType"%string] [] (TVariant [(Variant "Any"%string [] 0%N []); (Variant "CancelProxy"%string [] 1%N []); (Variant "Governance"%string [] 2%N []); (Variant "Auction"%string [] 3%N []); (Variant "Swap"%string [] 4%N []); (Variant "Loan"%string [] 5%N [])]) []).
Definition md_t35 : ty := (Ty [] [] (TPrimitive (PrU U16)) []).
Definition md_t36 : ty := (Ty ["module_transaction_pause"%string; "module"%string; "Event"%string] [("T"%string,None)] (TVariant [(Variant "TransactionPaused"%string [(Field None 10%N (Some "Vec<u8>"%string) []); (Field None 10%N (Some "Vec<u8>"%string) [])] 0%N ["Paused transaction . \[pallet_name_bytes, function_name_bytes\]"%string]); (Variant "TransactionUnpaused"%string [(Field None 10%N (Some "Vec<u8>"%string) []); (Field None 10%N (Some "Vec<u8>"%string) [])] 1%N ["Unpaused transaction . \[pallet_name_bytes, function_name_bytes\]"%string])]) ["
			The [event](https://docs.substrate.io/v3/runtime/events-and-errors) emitted
			by this pallet.
			"%string]).
Definition md_t37 : ty := (Ty ["module_idle_scheduler"%string; "module"%string; "Event"%string] [("T"%string,None)] (TVariant [(Variant "TaskDispatched"%string [(Field None 4%N (Some "Nonce"%string) []); (Field None 28%N (Some "DispatchResult"%string) [])] 0%N ["A task has been dispatched on_idle."%string; "\[TaskId, DispatchResult\]"%string])]) ["
			The [event](https://docs.substrate.io/v3/runtime/events-and-errors) emitted
			by this pallet.
			"%string]).
Definition md_t38 : ty := (Ty ["pallet_balances"%string; "pallet"%string; "Event"%string] [("T"%string,None); ("I"%string,None)] (TVariant [(Variant "Endowed"%string [(Field (Some "account"%string) 0%N (Some "T::AccountId"%string) []); (Field (Some "free_balance"%string) 6%N (Some "T::Balance"%string) [])] 0%N ["An account was created with some free balance."%string]); (Variant "DustLost"%string [(Field (Some "account"%string) 0%N (Some "T::AccountId"%string) []); (Field (Some "amount"%string) 6%N (Some "T::Balance"%string) [])] 1%N ["An account was removed whose balance was non-zero but below ExistentialDeposit,"%string; "resulting in an outright loss."%string]); (Variant "Transfer"%string [(Field (Some "from"%string) 0%N (Some "T::AccountId"%string) []); (Field (Some "to"%string) 0%N (Some "T::AccountId"%string) []); (Field (Some "amount"%string) 6%N (Some "T::Balance"%string) [])] 2%N ["Transfer succeeded."%string]); (Variant "BalanceSet"%string [(Field (Some "who"%string) 0%N (Some "T::AccountId"%string) []); (Field (Some "free"%string) 6%N (Some "T::Balance"%string) []); (Field (Some "reserved"%string) 6%N (Some "T::Balance"%string) [])] 3%N ["A balance was set by root."%string]); (Variant "Reserved"%string [(Field (Some "who"%string) 0%N (Some "T::AccountId"%string) []); (Field (Some "amount"%string) 6%N (Some "T::Balance"%string) [])] 4%N ["Some balance was reserved (moved from free to reserved)."%string]); (Variant "Unreserved"%string [(Field (Some "who"%string) 0%N (Some "T::AccountId"%string) []); (Field (Some "amount"%string) 6%N (Some "T::Balance"%string) [])] 5%N ["Some balance was unreserved (moved from reserved to free)."%string]); (Variant "ReserveRepatriated"%string [(Field (Some "from"%string) 0%N (Some "T::AccountId"%string) []); (Field (Some "to"%string) 0%N (Some "T::AccountId"%string) []); (Field (Some "amount"%string) 6%N (Some "T::Balance"%string) []); (Field (Some "destination_status"%string) 39%N (Some "Status"%string) [])] 6%N ["Some balance was moved from the reserve of the first account to the second account."%string; "Final argument indicates the destination balance type."%string]); (Variant "Deposit"%string [(Field (Some "who"%string) 0%N (Some "T::AccountId"%string) []); (Field (Some "amount"%string) 6%N (Some "T::Balance"%string) [])] 7%N ["Some amount was deposited (e.g. for transaction fees)."%string]); (Variant "Withdraw"%string [(Field (Some "who"%string) 0%N (Some "T::AccountId"%string) []); (Field (Some "amount"%string) 6%N (Some "T::Balance"%string) [])] 8%N ["Some amount was withdrawn from the account (e.g. for transaction fees)."%string]); (Variant "Slashed"%string [(Field (Some "who"%string) 0%N (Some "T::AccountId"%string) []); (Field (Some "amount"%string) 6%N (Some "T::Balance"%string) [])] 9%N ["Some amount was removed from the account (e.g. for misbehavior)."%string])]) ["
			The [event](https://docs.substrate.io/v3/runtime/events-and-errors) emitted
			by this pallet.
			"%string]).
Definition md_t39 : ty := (Ty ["frame_support"%string; "traits"%string; "tokens"%string; "misc"%string; "BalanceStatus"%string] [] (TVariant [(Variant "Free"%string [] 0%N []); (Variant "Reserved"%string [] 1%N [])]) []).
Definition md_t40 : ty := (Ty ["orml_tokens"%string; "module"%string; "Event"%string] [("T"%string,None)] (TVariant [(Variant "Endowed"%string [(Field None 41%N (Some "T::CurrencyId"%string) []); (Field None 0%N (Some "T::AccountId"%string) []); (Field None 6%N (Some "T::Balance"%string) [])] 0%N ["An account was created with some free balance. \[currency_id,"%string; "account, free_balance\]"%string]); (Variant "DustLost"%string [(Field None 41%N (Some "T::CurrencyId"%string) []); (Field None 0%N (Some "T::AccountId"%string) []); (Field None 6%N (Some "T::Balance"%string) [])] 1%N ["An account was removed whose balance was non-zero but below"%string; "ExistentialDeposit, resulting in an outright loss. \[currency_id,"%string; "account, balance\]"%string]); (Variant "Transfer"%string [(Field None 41%N (Some "T::CurrencyId"%string) []); (Field None 0%N (Some "T::AccountId"%string) []); (Field None 0%N (Some "T::AccountId"%string) []); (Field None 6%N (Some "T::Balance"%string) [])] 2%N ["Transfer succeeded. \[currency_id, from, to, value\]"%string]); (Variant "Reserved"%string [(Field None 41%N (Some "T::CurrencyId"%string) []); (Field None 0%N (Some "T::AccountId"%string) []); (Field None 6%N (Some "T::Balance"%string) [])] 3%N ["Some balance was reserved (moved from free to reserved)."%string; "\[currency_id, who, value\]"%string]); (Variant "Unreserved"%string [(Field None 41%N (Some "T::CurrencyId"%string) []); (Field None 0%N (Some "T::AccountId"%string) []); (Field None 6%N (Some "T::Balance"%string) [])] 4%N ["Some balance was unreserved (moved from reserved to free)."%string; "\[currency_id, who, value\]"%string]); (Variant "RepatriatedReserve"%string [(Field None 41%N (Some "T::CurrencyId"%string) []); (Field None 0%N (Some "T::AccountId"%string) []); (Field None 0%N (Some "T::AccountId"%string) []); (Field None 6%N (Some "T::Balance"%string) []); (Field None 39%N (Some "BalanceStatus"%string) [])] 5%N ["Some reserved balance was repatriated (moved from reserved to"%string; "another account)."%string; "\[currency_id, from, to, amount_actually_moved, status\]"%string]); (Variant "BalanceSet"%string [(Field None 41%N (Some "T::CurrencyId"%string) []); (Field None 0%N (Some "T::AccountId"%string) []); (Field None 6%N (Some "T::Balance"%string) []); (Field None 6%N (Some "T::Balance"%string) [])] 6%N ["A balance was set by root. \[who, free, reserved\]"%string])]) ["
			The [event](https://docs.substrate.io/v3/runtime/events-and-errors) emitted
			by this pallet.
			"%string]).
Definition md_t41 : ty := (Ty ["acala_primitives"%string; "currency"%string; "CurrencyId"%string] [] (TVariant [(Variant "Token"%string [(Field None 42%N (Some "TokenSymbol"%string) [])] 0%N []); (Variant "DexShare"%string [(Field None 43%N (Some "DexShare"%string) []); (Field None 43%N (Some "DexShare"%string) [])] 1%N []); (Variant "Erc20"%string [(Field None 44%N (Some "EvmAddress"%string) [])] 2%N []); (Variant "StableAssetPoolToken"%string [(Field None 4%N (Some "nutsfinance_stable_asset::StableAssetPoolId"%string) [])] 3%N []); (Variant "LiquidCroadloan"%string [(Field None 4%N (Some "Lease"%string) [])] 4%N []); (Variant "ForeignAsset"%string [(Field None 35%N (Some "ForeignAssetId"%string) [])] 5%N [])]) []).
Definition md_t42 : ty := (Ty ["acala_primitives"%string; "currency"%string; "TokenSymbol"%string] [] (TVariant [(Variant "ACA"%string [] 0%N []); (Variant "AUSD"%string [] 1%N []); (Variant "DOT"%string [] 2%N []); (Variant "LDOT"%string [] 3%N []); (Variant "RENBTC"%string [] 20%N []); (Variant "CASH"%string [] 21%N []); (Variant "KAR"%string [] 128%N []); (Variant "KUSD"%string [] 129%N []); (Variant "KSM"%string [] 130%N []); (Variant "LKSM"%string [] 131%N []); (Variant "TAI"%string [] 132%N []); (Variant "BNC"%string [] 168%N []); (Variant "VSKSM"%string [] 169%N []); (Variant "PHA"%string [] 170%N []); (Variant "KINT"%string [] 171%N []); (Variant "KBTC"%string [] 172%N [])]) []).
Definition md_t43 : ty := (Ty ["acala_primitives"%string; "currency"%string; "DexShare"%string] [] (TVariant [(Variant "Token"%string [(Field None 42%N (Some "TokenSymbol"%string) [])] 0%N []); (Variant "Erc20"%string [(Field None 44%N (Some "EvmAddress"%string) [])] 1%N []); (Variant "LiquidCroadloan"%string [(Field None 4%N (Some "Lease"%string) [])] 2%N []); (Variant "ForeignAsset"%string [(Field None 35%N (Some "ForeignAssetId"%string) [])] 3%N [])]) []).
Definition md_t44 : ty := (Ty ["primitive_types"%string; "H160"%string] [] (TComposite [(Field None 45%N (Some "[u8; 20]"%string) [])]) []).
Definition md_t45 : ty := (Ty [] [] (TArray 20%N 2%N) []).
Definition md_t46 : ty := (Ty ["module_currencies"%string; "module"%string; "Event"%string] [("T"%string,None)] (TVariant [(Variant "Transferred"%string [(Field None 41%N (Some "CurrencyIdOf<T>"%string) []); (Field None 0%N (Some "T::AccountId"%string) []); (Field None 0%N (Some "T::AccountId"%string) []); (Field None 6%N (Some "BalanceOf<T>"%string) [])] 0%N ["Currency transfer success. \[currency_id, from, to, amount\]"%string]); (Variant "BalanceUpdated"%string [(Field None 41%N (Some "CurrencyIdOf<T>"%string) []); (Field None 0%N (Some "T::AccountId"%string) []); (Field None 47%N (Some "AmountOf<T>"%string) [])] 1%N ["Update balance success. \[currency_id, who, amount\]"%string]); (Variant "Deposited"%string [(Field None 41%N (Some "CurrencyIdOf<T>"%string) []); (Field None 0%N (Some "T::AccountId"%string) []); (Field None 6%N (Some "BalanceOf<T>"%string) [])] 2%N ["Deposit success. \[currency_id, who, amount\]"%string]); (Variant "Withdrawn"%string [(Field None 41%N (Some "CurrencyIdOf<T>"%string) []); (Field None 0%N (Some "T::AccountId"%string) []); (Field None 6%N (Some "BalanceOf<T>"%string) [])] 3%N ["Withdraw success. \[currency_id, who, amount\]"%string]); (Variant "DustSwept"%string [(Field None 41%N (Some "CurrencyIdOf<T>"%string) []); (Field None 0%N (Some "T::AccountId"%string) []); (Field None 6%N (Some "BalanceOf<T>"%string) [])] 4%N ["Dust swept. \[currency_id, who, amount\]"%string])]) ["
			The [event](https://docs.substrate.io/v3/runtime/events-and-errors) emitted
			by this pallet.
			"%string]).
Definition md_t47 : ty := (Ty [] [] (TPrimitive (PrI U128)) []).
Definition md_t48 : ty := (Ty ["orml_vesting"%string; "module"%string; "Event"%string] [("T"%string,None)] (TVariant [(Variant "VestingScheduleAdded"%string [(Field None 0%N (Some "T::AccountId"%string) []); (Field None 0%N (Some "T::AccountId"%string) []); (Field None 49%N (Some "VestingScheduleOf<T>"%string) [])] 0%N ["Added new vesting schedule. \[from, to, vesting_schedule\]"%string]); (Variant "Claimed"%string [(Field None 0%N (Some "T::AccountId"%string) []); (Field None 6%N (Some "BalanceOf<T>"%string) [])] 1%N ["Claimed vesting. \[who, locked_amount\]"%string]); (Variant "VestingSchedulesUpdated"%string [(Field None 0%N (Some "T::AccountId"%string) [])] 2%N ["Updated vesting schedules. \[who\]"%string])]) ["
			The [event](https://docs.substrate.io/v3/runtime/events-and-errors) emitted
			by this pallet.
			"%string]).
Definition md_t49 : ty := (Ty ["orml_vesting"%string; "VestingSchedule"%string] [("BlockNumber"%string,(Some 4%N)); ("Balance"%string,(Some 6%N))] (TComposite [(Field (Some "start"%string) 4%N (Some "BlockNumber"%string) []); (Field (Some "period"%string) 4%N (Some "BlockNumber"%string) []); (Field (Some "period_count"%string) 4%N (Some "u32"%string) []); (Field (Some "per_period"%string) 50%N (Some "Balance"%string) [])]) []).
Definition md_t50 : ty := (Ty [] [] (TCompact 6%N) []).
Definition md_t51 : ty := (Ty ["pallet_treasury"%string; "pallet"%string; "Event"%string] [("T"%string,None); ("I"%string,None)] (TVariant [(Variant "Proposed"%string [(Field None 4%N (Some "ProposalIndex"%string) [])] 0%N ["New proposal. \[proposal_index\]"%string]); (Variant "Spending"%string [(Field None 6%N (Some "BalanceOf<T, I>"%string) [])] 1%N ["We have ended a spend period and will now allocate funds. \[budget_remaining\]"%string]); (Variant "Awarded"%string [(Field None 4%N (Some "ProposalIndex"%string) []); (Field None 6%N (Some "BalanceOf<T, I>"%string) []); (Field None 0%N (Some "T::AccountId"%string) [])] 2%N ["Some funds have been allocated. \[proposal_index, award, beneficiary\]"%string]); (Variant "Rejected"%string [(Field None 4%N (Some "ProposalIndex"%string) []); (Field None 6%N (Some "BalanceOf<T, I>"%string) [])] 3%N ["A proposal was rejected; funds were slashed. \[proposal_index, slashed\]"%string]); (Variant "Burnt"%string [(Field None 6%N (Some "BalanceOf<T, I>"%string) [])] 4%N ["Some of our funds have been burnt. \[burn\]"%string]); (Variant "Rollover"%string [(Field None 6%N (Some "BalanceOf<T, I>"%string) [])] 5%N ["Spending has finished; this is the amount that rolls over until next spend."%string; "\[budget_remaining\]"%string]); (Variant "Deposit"%string [(Field None 6%N (Some "BalanceOf<T, I>"%string) [])] 6%N ["Some funds have been deposited. \[deposit\]"%string])]) ["
			The [event](https://docs.substrate.io/v3/runtime/events-and-errors) emitted
			by this pallet.
			"%string]).
Definition md_t52 : ty := (Ty ["pallet_bounties"%string; "pallet"%string; "Event"%string] [("T"%string,None)] (TVariant [(Variant "BountyProposed"%string [(Field (Some "index"%string) 4%N (Some "BountyIndex"%string) [])] 0%N ["New bounty proposal."%string]); (Variant "BountyRejected"%string [(Field (Some "index"%string) 4%N (Some "BountyIndex"%string) []); (Field (Some "bond"%string) 6%N (Some "BalanceOf<T>"%string) [])] 1%N ["A bounty proposal was rejected; funds were slashed."%string]); (Variant "BountyBecameActive"%string [(Field (Some "index"%string) 4%N (Some "BountyIndex"%string) [])] 2%N ["A bounty proposal is funded and became active."%string]); (Variant "BountyAwarded"%string [(Field (Some "index"%string) 4%N (Some "BountyIndex"%string) []); (Field (Some "beneficiary"%string) 0%N (Some "T::AccountId"%string) [])] 3%N ["A bounty is awarded to a beneficiary."%string]); (Variant "BountyClaimed"%string [(Field (Some "index"%string) 4%N (Some "BountyIndex"%string) []); (Field (Some "payout"%string) 6%N (Some "BalanceOf<T>"%string) []); (Field (Some "beneficiary"%string) 0%N (Some "T::AccountId"%string) [])] 4%N ["A bounty is claimed by beneficiary."%string]); (Variant "BountyCanceled"%string [(Field (Some "index"%string) 4%N (Some "BountyIndex"%string) [])] 5%N ["A bounty is cancelled."%string]); (Variant "BountyExtended"%string [(Field (Some "index"%string) 4%N (Some "BountyIndex"%string) [])] 6%N ["A bounty expiry is extended."%string])]) ["
			The [event](https://docs.substrate.io/v3/runtime/events-and-errors) emitted
			by this pallet.
			"%string]).
Definition md_t53 : ty := (Ty ["pallet_tips"%string; "pallet"%string; "Event"%string] [("T"%string,None)] (TVariant [(Variant "NewTip"%string [(Field (Some "tip_hash"%string) 9%N (Some "T::Hash"%string) [])] 0%N ["A new tip suggestion has been opened."%string]); (Variant "TipClosing"%string [(Field (Some "tip_hash"%string) 9%N (Some "T::Hash"%string) [])] 1%N ["A tip suggestion has reached threshold and is closing."%string]); (Variant "TipClosed"%string [(Field (Some "tip_hash"%string) 9%N (Some "T::Hash"%string) []); (Field (Some "who"%string) 0%N (Some "T::AccountId"%string) []); (Field (Some "payout"%string) 6%N (Some "BalanceOf<T>"%string) [])] 2%N ["A tip suggestion has been closed."%string]); (Variant "TipRetracted"%string [(Field (Some "tip_hash"%string) 9%N (Some "T::Hash"%string) [])] 3%N ["A tip suggestion has been retracted."%string]); (Variant "TipSlashed"%string [(Field (Some "tip_hash"%string) 9%N (Some "T::Hash"%string) []); (Field (Some "finder"%string) 0%N (Some "T::AccountId"%string) []); (Field (Some "deposit"%string) 6%N (Some "BalanceOf<T>"%string) [])] 4%N ["A tip suggestion has been slashed."%string])]) ["
			The [event](https://docs.substrate.io/v3/runtime/events-and-errors) emitted
			by this pallet.
			"%string]).
Definition md_t54 : ty := (Ty ["cumulus_pallet_parachain_system"%string; "pallet"%string; "Event"%string] [("T"%string,None)] (TVariant [(Variant "ValidationFunctionStored"%string [] 0%N ["The validation function has been scheduled to apply."%string]); (Variant "ValidationFunctionApplied"%string [(Field None 4%N (Some "RelayChainBlockNumber"%string) [])] 1%N ["The validation function was applied as of the contained relay chain block number."%string]); (Variant "ValidationFunctionDiscarded"%string [] 2%N ["The relay-chain aborted the upgrade process."%string]); (Variant "UpgradeAuthorized"%string [(Field None 9%N (Some "T::Hash"%string) [])] 3%N ["An upgrade has been authorized."%string]); (Variant "DownwardMessagesReceived"%string [(Field None 4%N (Some "u32"%string) [])] 4%N ["Some downward messages have been received and will be processed."%string; "\[ count \]"%string]); (Variant "DownwardMessagesProcessed"%string [(Field None 8%N (Some "Weight"%string) []); (Field None 9%N (Some "relay_chain::Hash"%string) [])] 5%N ["Downward messages were processed using the given weight."%string; "\[ weight_used, result_mqc_head \]"%string])]) ["
			The [event](https://docs.substrate.io/v3/runtime/events-and-errors) emitted
			by this pallet.
			"%string]).
Definition md_t55 : ty := (Ty ["module_collator_selection"%string; "pallet"%string; "Event"%string] [("T"%string,None)] (TVariant [(Variant "NewInvulnerables"%string [(Field None 56%N (Some "Vec<T::AccountId>"%string) [])] 0%N ["Invulnurable was updated. \[new_invulnerables\]"%string]); (Variant "NewDesiredCandidates"%string [(Field None 4%N (Some "u32"%string) [])] 1%N ["Desired candidates was updated. \[new_desired_candidates\]"%string]); (Variant "NewCandidacyBond"%string [(Field None 6%N (Some "BalanceOf<T>"%string) [])] 2%N ["Candidacy bond was updated. \[new_candidacy_bond\]"%string]); (Variant "CandidateAdded"%string [(Field None 0%N (Some "T::AccountId"%string) []); (Field None 6%N (Some "BalanceOf<T>"%string) [])] 3%N ["A candidate was added. \[who, bond\]"%string]); (Variant "CandidateRemoved"%string [(Field None 0%N (Some "T::AccountId"%string) [])] 4%N ["A candidate was removed. \[who\]"%string])]) ["
			The [event](https://docs.substrate.io/v3/runtime/events-and-errors) emitted
			by this pallet.
			"%string]).
Definition md_t56 : ty := (Ty [] [] (TSequence 0%N) []).
Definition md_t57 : ty := (Ty ["pallet_session"%string; "pallet"%string; "Event"%string] [] (TVariant [(Variant "NewSession"%string [(Field (Some "session_index"%string) 4%N (Some "SessionIndex"%string) [])] 0%N ["New session has happened. Note that the argument is the session index, not the"%string; "block number as the type might suggest."%string])]) ["
			The [event](https://docs.substrate.io/v3/runtime/events-and-errors) emitted
			by this pallet.
			"%string]).
Definition md_t58 : ty := (Ty ["module_session_manager"%string; "module"%string; "Event"%string] [("T"%string,None)] (TVariant [(Variant "ScheduledSessionDuration"%string [(Field None 4%N (Some "T::BlockNumber"%string) []); (Field None 4%N (Some "SessionIndex"%string) []); (Field None 4%N (Some "T::BlockNumber"%string) [])] 0%N ["Scheduled session duration. \[block_number, session_index, session_duration\]"%string])]) ["
			The [event](https://docs.substrate.io/v3/runtime/events-and-errors) emitted
			by this pallet.
			"%string]).
Definition md_t59 : ty := (Ty ["cumulus_pallet_xcmp_queue"%string; "pallet"%string; "Event"%string] [("T"%string,None)] (TVariant [(Variant "Success"%string [(Field None 60%N (Some "Option<T::Hash>"%string) [])] 0%N ["Some XCM was executed ok."%string]); (Variant "Fail"%string [(Field None 60%N (Some "Option<T::Hash>"%string) []); (Field None 61%N (Some "XcmError"%string) [])] 1%N ["Some XCM failed."%string]); (Variant "BadVersion"%string [(Field None 60%N (Some "Option<T::Hash>"%string) [])] 2%N ["Bad XCM version used."%string]); (Variant "BadFormat"%string [(Field None 60%N (Some "Option<T::Hash>"%string) [])] 3%N ["Bad XCM format used."%string]); (Variant "UpwardMessageSent"%string [(Field None 60%N (Some "Option<T::Hash>"%string) [])] 4%N ["An upward message was sent to the relay chain."%string]); (Variant "XcmpMessageSent"%string [(Field None 60%N (Some "Option<T::Hash>"%string) [])] 5%N ["An HRMP message was sent to a sibling parachain."%string])]) ["
			The [event](https://docs.substrate.io/v3/runtime/events-and-errors) emitted
			by this pallet.
			"%string]).
Definition md_t60 : ty := (Ty ["Option"%string] [("T"%string,(Some 9%N))] (TVariant [(Variant "None"%string [] 0%N []); (Variant "Some"%string [(Field None 9%N None [])] 1%N [])]) []).
Definition md_t61 : ty := (Ty ["xcm"%string; "v2"%string; "traits"%string; "Error"%string] [] (TVariant [(Variant "Overflow"%string [] 0%N []); (Variant "Unimplemented"%string [] 1%N []); (Variant "UntrustedReserveLocation"%string [] 2%N []); (Variant "UntrustedTeleportLocation"%string [] 3%N []); (Variant "MultiLocationFull"%string [] 4%N []); (Variant "MultiLocationNotInvertible"%string [] 5%N []); (Variant "BadOrigin"%string [] 6%N []); (Variant "InvalidLocation"%string [] 7%N []); (Variant "AssetNotFound"%string [] 8%N []); (Variant "FailedToTransactAsset"%string [] 9%N []); (Variant "NotWithdrawable"%string [] 10%N []); (Variant "LocationCannotHold"%string [] 11%N []); (Variant "ExceedsMaxMessageSize"%string [] 12%N []); (Variant "DestinationUnsupported"%string [] 13%N []); (Variant "Transport"%string [] 14%N []); (Variant "Unroutable"%string [] 15%N []); (Variant "UnknownClaim"%string [] 16%N []); (Variant "FailedToDecode"%string [] 17%N []); (Variant "TooMuchWeightRequired"%string [] 18%N []); (Variant "NotHoldingFees"%string [] 19%N []); (Variant "TooExpensive"%string [] 20%N []); (Variant "Trap"%string [(Field None 8%N (Some "u64"%string) [])] 21%N []); (Variant "UnhandledXcmVersion"%string [] 22%N []); (Variant "WeightLimitReached"%string [(Field None 8%N (Some "Weight"%string) [])] 23%N []); (Variant "Barrier"%string [] 24%N []); (Variant "WeightNotComputable"%string [] 25%N [])]) []).
Definition md_t62 : ty := (Ty ["pallet_xcm"%string; "pallet"%string; "Event"%string] [("T"%string,None)] (TVariant [(Variant "Attempted"%string [(Field None 63%N (Some "xcm::latest::Outcome"%string) [])] 0%N ["Execution of an XCM message was attempted."%string; ""%string; "\[ outcome \]"%string]); (Variant "Sent"%string [(Field None 64%N (Some "MultiLocation"%string) []); (Field None 64%N (Some "MultiLocation"%string) []); (Field None 72%N (Some "Xcm<()>"%string) [])] 1%N ["A XCM message was sent."%string; ""%string; "\[ origin, destination, message \]"%string]); (Variant "UnexpectedResponse"%string [(Field None 64%N (Some "MultiLocation"%string) []); (Field None 8%N (Some "QueryId"%string) [])] 2%N ["Query response received which does not match a registered query. This may be because a"%string; "matching query was never registered, it may be because it is a duplicate response, or"%string; "because the query timed out."%string; ""%string; "\[ origin location, id \]"%string]); (Variant "ResponseReady"%string [(Field None 8%N (Some "QueryId"%string) []); (Field None 83%N (Some "Response"%string) [])] 3%N ["Query response has been received and is ready for taking with `take_response`. There is"%string; "no registered notification call."%string; ""%string; "\[ id, response \]"%string]); (Variant "Notified"%string [(Field None 8%N (Some "QueryId"%string) []); (Field None 2%N (Some "u8"%string) []); (Field None 2%N (Some "u8"%string) [])] 4%N ["Query response has been received and query is removed. The registered notification has"%string; "been dispatched and executed successfully."%string; ""%string; "\[ id, pallet index, call index \]"%string]); (Variant "NotifyOverweight"%string [(Field None 8%N (Some "QueryId"%string) []); (Field None 2%N (Some "u8"%string) []); (Field None 2%N (Some "u8"%string) []); (Field None 8%N (Some "Weight"%string) []); (Field None 8%N (Some "Weight"%string) [])] 5%N ["Query response has been received and query is removed. The registered notification could"%string; "not be dispatched because the dispatch weight is greater than the maximum weight"%string; "originally budgeted by this runtime for the query result."%string; ""%string; "\[ id, pallet index, call index, actual weight, max budgeted weight \]"%string]); (Variant "NotifyDispatchError"%string [(Field None 8%N (Some "QueryId"%string) []); (Field None 2%N (Some "u8"%string) []); (Field None 2%N (Some "u8"%string) [])] 6%N ["Query response has been received and query is removed. There was a general error with"%string; "dispatching the notification call."%string; ""%string; "\[ id, pallet index, call index \]"%string]); (Variant "NotifyDecodeFailed"%string [(Field None 8%N (Some "QueryId"%string) []); (Field None 2%N (Some "u8"%string) []); (Field None 2%N (Some "u8"%string) [])] 7%N ["Query response has been received and query is removed. The dispatch was unable to be"%string; "decoded into a `Call`; this might be due to dispatch function having a signature which"%string; "is not `(origin, QueryId, Response)`."%string; ""%string; "\[ id, pallet index, call index \]"%string]); (Variant "InvalidResponder"%string [(Field None 64%N (Some "MultiLocation"%string) []); (Field None 8%N (Some "QueryId"%string) []); (Field None 92%N (Some "Option<MultiLocation>"%string) [])] 8%N ["Expected query response has been received but the origin location of the response does"%string; "not match that expected. The query remains registered for a later, valid, response to"%string; "be received and acted upon."%string; ""%string; "\[ origin location, id, expected location \]"%string]); (Variant "InvalidResponderVersion"%string [(Field None 64%N (Some "MultiLocation"%string) []); (Field None 8%N (Some "QueryId"%string) [])] 9%N ["Expected query response has been received but the expected origin location placed in"%string; "storage by this runtime previously cannot be decoded. The query remains registered."%string; ""%string; "This is unexpected (since a location placed in storage in a previously executing"%string; "runtime should be readable prior to query timeout) and dangerous since the possibly"%string; "valid response will be dropped. Manual governance intervention is probably going to be"%string; "needed."%string; ""%string; "\[ origin location, id \]"%string]); (Variant "ResponseTaken"%string [(Field None 8%N (Some "QueryId"%string) [])] 10%N ["Received query response has been read and removed."%string; ""%string; "\[ id \]"%string]); (Variant "AssetsTrapped"%string [(Field None 9%N (Some "H256"%string) []); (Field None 64%N (Some "MultiLocation"%string) []); (Field None 93%N (Some "VersionedMultiAssets"%string) [])] 11%N ["Some assets have been placed in an asset trap."%string; ""%string; "\[ hash, origin, assets \]"%string]); (Variant "VersionChangeNotified"%string [(Field None 64%N (Some "MultiLocation"%string) []); (Field None 4%N (Some "XcmVersion"%string) [])] 12%N ["An XCM version change notification message has been attempted to be sent."%string; ""%string; "\[ destination, result \]"%string]); (Variant "SupportedVersionChanged"%string [(Field None 64%N (Some "MultiLocation"%string) []); (Field None 4%N (Some "XcmVersion"%string) [])] 13%N ["The supported version of a location has been changed. This might be through an"%string; "automatic notification or a manual intervention."%string; ""%string; "\[ location, XCM version \]"%string]); (Variant "NotifyTargetSendFail"%string [(Field None 64%N (Some "MultiLocation"%string) []); (Field None 8%N (Some "QueryId"%string) []); (Field None 61%N (Some "XcmError"%string) [])] 14%N ["A given location which had a version change subscription was dropped owing to an error"%string; "sending the notification to it."%string; ""%string; "\[ location, query ID, error \]"%string]); (Variant "NotifyTargetMigrationFail"%string [(Field None 98%N (Some "VersionedMultiLocation"%string) []); (Field None 8%N (Some "QueryId"%string) [])] 15%N ["A given location which had a version change subscription was dropped owing to an error"%string; "migrating the location to our new XCM format."%string; ""%string; "\[ location, query ID \]"%string])]) ["
			The [event](https://docs.substrate.io/v3/runtime/events-and-errors) emitted
			by this pallet.
			"%string]).
Definition md_t63 : ty := (Ty ["xcm"%string; "v2"%string; "traits"%string; "Outcome"%string] [] (TVariant [(Variant "Complete"%string [(Field None 8%N (Some "Weight"%string) [])] 0%N []); (Variant "Incomplete"%string [(Field None 8%N (Some "Weight"%string) []); (Field None 61%N (Some "Error"%string) [])] 1%N []); (Variant "Error"%string [(Field None 61%N (Some "Error"%string) [])] 2%N [])]) []).
Definition md_t64 : ty := (Ty ["xcm"%string; "v1"%string; "multilocation"%string; "MultiLocation"%string] [] (TComposite [(Field (Some "parents"%string) 2%N (Some "u8"%string) []); (Field (Some "interior"%string) 65%N (Some "Junctions"%string) [])]) []).
Definition md_t65 : ty := (Ty ["xcm"%string; "v1"%string; "multilocation"%string; "Junctions"%string] [] (TVariant [(Variant "Here"%string [] 0%N []); (Variant "X1"%string [(Field None 66%N (Some "Junction"%string) [])] 1%N []); (Variant "X2"%string [(Field None 66%N (Some "Junction"%string) []); (Field None 66%N (Some "Junction"%string) [])] 2%N []); (Variant "X3"%string [(Field None 66%N (Some "Junction"%string) []); (Field None 66%N (Some "Junction"%string) []); (Field None 66%N (Some "Junction"%string) [])] 3%N []); (Variant "X4"%string [(Field None 66%N (Some "Junction"%string) []); (Field None 66%N (Some "Junction"%string) []); (Field None 66%N (Some "Junction"%string) []); (Field None 66%N (Some "Junction"%string) [])] 4%N []); (Variant "X5"%string [(Field None 66%N (Some "Junction"%string) []); (Field None 66%N (Some "Junction"%string) []); (Field None 66%N (Some "Junction"%string) []); (Field None 66%N (Some "Junction"%string) []); (Field None 66%N (Some "Junction"%string) [])] 5%N []); (Variant "X6"%string [(Field None 66%N (Some "Junction"%string) []); (Field None 66%N (Some "Junction"%string) []); (Field None 66%N (Some "Junction"%string) []); (Field None 66%N (Some "Junction"%string) []); (Field None 66%N (Some "Junction"%string) []); (Field None 66%N (Some "Junction"%string) [])] 6%N []); (Variant "X7"%string [(Field None 66%N (Some "Junction"%string) []); (Field None 66%N (Some "Junction"%string) []); (Field None 66%N (Some "Junction"%string) []); (Field None 66%N (Some "Junction"%string) []); (Field None 66%N (Some "Junction"%string) []); (Field None 66%N (Some "Junction"%string) []); (Field None 66%N (Some "Junction"%string) [])] 7%N []); (Variant "X8"%string [(Field None 66%N (Some "Junction"%string) []); (Field None 66%N (Some "Junction"%string) []); (Field None 66%N (Some "Junction"%string) []); (Field None 66%N (Some "Junction"%string) []); (Field None 66%N (Some "Junction"%string) []); (Field None 66%N (Some "Junction"%string) []); (Field None 66%N (Some "Junction"%string) []); (Field None 66%N (Some "Junction"%string) [])] 8%N [])]) []).
Definition md_t66 : ty := (Ty ["xcm"%string; "v1"%string; "junction"%string; "Junction"%string] [] (TVariant [(Variant "Parachain"%string [(Field None 67%N (Some "u32"%string) [])] 0%N []); (Variant "AccountId32"%string [(Field (Some "network"%string) 68%N (Some "NetworkId"%string) []); (Field (Some "id"%string) 1%N (Some "[u8; 32]"%string) [])] 1%N []); (Variant "AccountIndex64"%string [(Field (Some "network"%string) 68%N (Some "NetworkId"%string) []); (Field (Some "index"%string) 69%N (Some "u64"%string) [])] 2%N []); (Variant "AccountKey20"%string [(Field (Some "network"%string) 68%N (Some "NetworkId"%string) []); (Field (Some "key"%string) 45%N (Some "[u8; 20]"%string) [])] 3%N []); (Variant "PalletInstance"%string [(Field None 2%N (Some "u8"%string) [])] 4%N []); (Variant "GeneralIndex"%string [(Field None 50%N (Some "u128"%string) [])] 5%N []); (Variant "GeneralKey"%string [(Field None 10%N (Some "Vec<u8>"%string) [])] 6%N []); (Variant "OnlyChild"%string [] 7%N []); (Variant "Plurality"%string [(Field (Some "id"%string) 70%N (Some "BodyId"%string) []); (Field (Some "part"%string) 71%N (Some "BodyPart"%string) [])] 8%N [])]) []).
Definition md_t67 : ty := (Ty [] [] (TCompact 4%N) []).
Definition md_t68 : ty := (Ty ["xcm"%string; "v0"%string; "junction"%string; "NetworkId"%string] [] (TVariant [(Variant "Any"%string [] 0%N []); (Variant "Named"%string [(Field None 10%N (Some "Vec<u8>"%string) [])] 1%N []); (Variant "Polkadot"%string [] 2%N []); (Variant "Kusama"%string [] 3%N [])]) []).
Definition md_t69 : ty := (Ty [] [] (TCompact 8%N) []).
Definition md_t70 : ty := (Ty ["xcm"%string; "v0"%string; "junction"%string; "BodyId"%string] [] (TVariant [(Variant "Unit"%string [] 0%N []); (Variant "Named"%string [(Field None 10%N (Some "Vec<u8>"%string) [])] 1%N []); (Variant "Index"%string [(Field None 67%N (Some "u32"%string) [])] 2%N []); (Variant "Executive"%string [] 3%N []); (Variant "Technical"%string [] 4%N []); (Variant "Legislative"%string [] 5%N []); (Variant "Judicial"%string [] 6%N [])]) []).
Definition md_t71 : ty := (Ty ["xcm"%string; "v0"%string; "junction"%string; "BodyPart"%string] [] (TVariant [(Variant "Voice"%string [] 0%N []); (Variant "Members"%string [(Field (Some "count"%string) 67%N (Some "u32"%string) [])] 1%N []); (Variant "Fraction"%string [(Field (Some "nom"%string) 67%N (Some "u32"%string) []); (Field (Some "denom"%string) 67%N (Some "u32"%string) [])] 2%N []); (Variant "AtLeastProportion"%string [(Field (Some "nom"%string) 67%N (Some "u32"%string) []); (Field (Some "denom"%string) 67%N (Some "u32"%string) [])] 3%N []); (Variant "MoreThanProportion"%string [(Field (Some "nom"%string) 67%N (Some "u32"%string) []); (Field (Some "denom"%string) 67%N (Some "u32"%string) [])] 4%N [])]) []).
Definition md_t72 : ty := (Ty ["xcm"%string; "v2"%string; "Xcm"%string] [("Call"%string,None)] (TComposite [(Field None 73%N (Some "Vec<Instruction<Call>>"%string) [])]) []).
Definition md_t73 : ty := (Ty [] [] (TSequence 74%N) []).
Definition md_t74 : ty := (Ty ["xcm"%string; "v2"%string; "Instruction"%string] [("Call"%string,None)] (TVariant [(Variant "WithdrawAsset"%string [(Field None 75%N (Some "MultiAssets"%string) [])] 0%N []); (Variant "ReserveAssetDeposited"%string [(Field None 75%N (Some "MultiAssets"%string) [])] 1%N []); (Variant "ReceiveTeleportedAsset"%string [(Field None 75%N (Some "MultiAssets"%string) [])] 2%N []); (Variant "QueryResponse"%string [(Field (Some "query_id"%string) 69%N (Some "QueryId"%string) []); (Field (Some "response"%string) 83%N (Some "Response"%string) []); (Field (Some "max_weight"%string) 69%N (Some "u64"%string) [])] 3%N []); (Variant "TransferAsset"%string [(Field (Some "assets"%string) 75%N (Some "MultiAssets"%string) []); (Field (Some "beneficiary"%string) 64%N (Some "MultiLocation"%string) [])] 4%N []); (Variant "TransferReserveAsset"%string [(Field (Some "assets"%string) 75%N (Some "MultiAssets"%string) []); (Field (Some "dest"%string) 64%N (Some "MultiLocation"%string) []); (Field (Some "xcm"%string) 72%N (Some "Xcm<()>"%string) [])] 5%N []); (Variant "Transact"%string [(Field (Some "origin_type"%string) 86%N (Some "OriginKind"%string) []); (Field (Some "require_weight_at_most"%string) 69%N (Some "u64"%string) []); (Field (Some "call"%string) 87%N (Some "DoubleEncoded<Call>"%string) [])] 6%N []); (Variant "HrmpNewChannelOpenRequest"%string [(Field (Some "sender"%string) 67%N (Some "u32"%string) []); (Field (Some "max_message_size"%string) 67%N (Some "u32"%string) []); (Field (Some "max_capacity"%string) 67%N (Some "u32"%string) [])] 7%N []); (Variant "HrmpChannelAccepted"%string [(Field (Some "recipient"%string) 67%N (Some "u32"%string) [])] 8%N []); (Variant "HrmpChannelClosing"%string [(Field (Some "initiator"%string) 67%N (Some "u32"%string) []); (Field (Some "sender"%string) 67%N (Some "u32"%string) []); (Field (Some "recipient"%string) 67%N (Some "u32"%string) [])] 9%N []); (Variant "ClearOrigin"%string [] 10%N []); (Variant "DescendOrigin"%string [(Field None 65%N (Some "InteriorMultiLocation"%string) [])] 11%N []); (Variant "ReportError"%string [(Field (Some "query_id"%string) 69%N (Some "QueryId"%string) []); (Field (Some "dest"%string) 64%N (Some "MultiLocation"%string) []); (Field (Some "max_response_weight"%string) 69%N (Some "u64"%string) [])] 12%N []); (Variant "DepositAsset"%string [(Field (Some "assets"%string) 88%N (Some "MultiAssetFilter"%string) []); (Field (Some "max_assets"%string) 67%N (Some "u32"%string) []); (Field (Some "beneficiary"%string) 64%N (Some "MultiLocation"%string) [])] 13%N []); (Variant "DepositReserveAsset"%string [(Field (Some "assets"%string) 88%N (Some "MultiAssetFilter"%string) []); (Field (Some "max_assets"%string) 67%N (Some "u32"%string) []); (Field (Some "dest"%string) 64%N (Some "MultiLocation"%string) []); (Field (Some "xcm"%string) 72%N (Some "Xcm<()>"%string) [])] 14%N []); (Variant "ExchangeAsset"%string [(Field (Some "give"%string) 88%N (Some "MultiAssetFilter"%string) []); (Field (Some "receive"%string) 75%N (Some "MultiAssets"%string) [])] 15%N []); (Variant "InitiateReserveWithdraw"%string [(Field (Some "assets"%string) 88%N (Some "MultiAssetFilter"%string) []); (Field (Some "reserve"%string) 64%N (Some "MultiLocation"%string) []); (Field (Some "xcm"%string) 72%N (Some "Xcm<()>"%string) [])] 16%N []); (Variant "InitiateTeleport"%string [(Field (Some "assets"%string) 88%N (Some "MultiAssetFilter"%string) []); (Field (Some "dest"%string) 64%N (Some "MultiLocation"%string) []); (Field (Some "xcm"%string) 72%N (Some "Xcm<()>"%string) [])] 17%N []); (Variant "QueryHolding"%string [(Field (Some "query_id"%string) 69%N (Some "QueryId"%string) []); (Field (Some "dest"%string) 64%N (Some "MultiLocation"%string) []); (Field (Some "assets"%string) 88%N (Some "MultiAssetFilter"%string) []); (Field (Some "max_response_weight"%string) 69%N (Some "u64"%string) [])] 18%N []); (Variant "BuyExecution"%string [(Field (Some "fees"%string) 77%N (Some "MultiAsset"%string) []); (Field (Some "weight_limit"%string) 91%N (Some "WeightLimit"%string) [])] 19%N []); (Variant "RefundSurplus"%string [] 20%N []); (Variant "SetErrorHandler"%string [(Field None 72%N (Some "Xcm<Call>"%string) [])] 21%N []); (Variant "SetAppendix"%string [(Field None 72%N (Some "Xcm<Call>"%string) [])] 22%N []); (Variant "ClearError"%string [] 23%N []); (Variant "ClaimAsset"%string [(Field (Some "assets"%string) 75%N (Some "MultiAssets"%string) []); (Field (Some "ticket"%string) 64%N (Some "MultiLocation"%string) [])] 24%N []); (Variant "Trap"%string [(Field None 69%N (Some "u64"%string) [])] 25%N []); (Variant "SubscribeVersion"%string [(Field (Some "query_id"%string) 69%N (Some "QueryId"%string) []); (Field (Some "max_response_weight"%string) 69%N (Some "u64"%string) [])] 26%N []); (Variant "UnsubscribeVersion"%string [] 27%N [])]) []).
Definition md_t75 : ty := (Ty ["xcm"%string; "v1"%string; "multiasset"%string; "MultiAssets"%string] [] (TComposite [(Field None 76%N (Some "Vec<MultiAsset>"%string) [])]) []).
Definition md_t76 : ty := (Ty [] [] (TSequence 77%N) []).
Definition md_t77 : ty := (Ty ["xcm"%string; "v1"%string; "multiasset"%string; "MultiAsset"%string] [] (TComposite [(Field (Some "id"%string) 78%N (Some "AssetId"%string) []); (Field (Some "fun"%string) 79%N (Some "Fungibility"%string) [])]) []).
Definition md_t78 : ty := (Ty ["xcm"%string; "v1"%string; "multiasset"%string; "AssetId"%string] [] (TVariant [(Variant "Concrete"%string [(Field None 64%N (Some "MultiLocation"%string) [])] 0%N []); (Variant "Abstract"%string [(Field None 10%N (Some "Vec<u8>"%string) [])] 1%N [])]) []).
Definition md_t79 : ty := (Ty ["xcm"%string; "v1"%string; "multiasset"%string; "Fungibility"%string] [] (TVariant [(Variant "Fungible"%string [(Field None 50%N (Some "u128"%string) [])] 0%N []); (Variant "NonFungible"%string [(Field None 80%N (Some "AssetInstance"%string) [])] 1%N [])]) []).
Definition md_t80 : ty := (Ty ["xcm"%string; "v1"%string; "multiasset"%string; "AssetInstance"%string] [] (TVariant [(Variant "Undefined"%string [] 0%N []); (Variant "Index"%string [(Field None 50%N (Some "u128"%string) [])] 1%N []); (Variant "Array4"%string [(Field None 14%N (Some "[u8; 4]"%string) [])] 2%N []); (Variant "Array8"%string [(Field None 81%N (Some "[u8; 8]"%string) [])] 3%N []); (Variant "Array16"%string [(Field None 82%N (Some "[u8; 16]"%string) [])] 4%N []); (Variant "Array32"%string [(Field None 1%N (Some "[u8; 32]"%string) [])] 5%N []); (Variant "Blob"%string [(Field None 10%N (Some "Vec<u8>"%string) [])] 6%N [])]) []).
Definition md_t81 : ty := (Ty [] [] (TArray 8%N 2%N) []).
Definition md_t82 : ty := (Ty [] [] (TArray 16%N 2%N) []).
Definition md_t83 : ty := (Ty ["xcm"%string; "v2"%string; "Response"%string] [] (TVariant [(Variant "Null"%string [] 0%N []); (Variant "Assets"%string [(Field None 75%N (Some "MultiAssets"%string) [])] 1%N []); (Variant "ExecutionResult"%string [(Field None 84%N (Some "Option<(u32, Error)>"%string) [])] 2%N []); (Variant "Version"%string [(Field None 4%N (Some "super::Version"%string) [])] 3%N [])]) []).
Definition md_t84 : ty := (Ty ["Option"%string] [("T"%string,(Some 85%N))] (TVariant [(Variant "None"%string [] 0%N []); (Variant "Some"%string [(Field None 85%N None [])] 1%N [])]) []).
Definition md_t85 : ty := (Ty [] [] (TTuple [4%N; 61%N]) []).
Definition md_t86 : ty := (Ty ["xcm"%string; "v0"%string; "OriginKind"%string] [] (TVariant [(Variant "Native"%string [] 0%N []); (Variant "SovereignAccount"%string [] 1%N []); (Variant "Superuser"%string [] 2%N []); (Variant "Xcm"%string [] 3%N [])]) []).
Definition md_t87 : ty := (Ty ["xcm"%string; "double_encoded"%string; "DoubleEncoded"%string] [("T"%string,None)] (TComposite [(Field (Some "encoded"%string) 10%N (Some "Vec<u8>"%string) [])]) []).
Definition md_t88 : ty := (Ty ["xcm"%string; "v1"%string; "multiasset"%string; "MultiAssetFilter"%string] [] (TVariant [(Variant "Definite"%string [(Field None 75%N (Some "MultiAssets"%string) [])] 0%N []); (Variant "Wild"%string [(Field None 89%N (Some "WildMultiAsset"%string) [])] 1%N [])]) []).
Definition md_t89 : ty := (Ty ["xcm"%string; "v1"%string; "multiasset"%string; "WildMultiAsset"%string] [] (TVariant [(Variant "All"%string [] 0%N []); (Variant "AllOf"%string [(Field (Some "id"%string) 78%N (Some "AssetId"%string) []); (Field (Some "fun"%string) 90%N (Some "WildFungibility"%string) [])] 1%N [])]) []).
Definition md_t90 : ty := (Ty ["xcm"%string; "v1"%string; "multiasset"%string; "WildFungibility"%string] [] (TVariant [(Variant "Fungible"%string [] 0%N []); (Variant "NonFungible"%string [] 1%N [])]) []).
Definition md_t91 : ty := (Ty ["xcm"%string; "v2"%string; "WeightLimit"%string] [] (TVariant [(Variant "Unlimited"%string [] 0%N []); (Variant "Limited"%string [(Field None 69%N (Some "u64"%string) [])] 1%N [])]) []).
Definition md_t92 : ty := (Ty ["Option"%string] [("T"%string,(Some 64%N))] (TVariant [(Variant "None"%string [] 0%N []); (Variant "Some"%string [(Field None 64%N None [])] 1%N [])]) []).
Definition md_t93 : ty := (Ty ["xcm"%string; "VersionedMultiAssets"%string] [] (TVariant [(Variant "V0"%string [(Field None 94%N (Some "Vec<v0::MultiAsset>"%string) [])] 0%N []); (Variant "V1"%string [(Field None 75%N (Some "v1::MultiAssets"%string) [])] 1%N [])]) []).
Definition md_t94 : ty := (Ty [] [] (TSequence 95%N) []).
Definition md_t95 : ty := (Ty ["xcm"%string; "v0"%string; "multi_asset"%string; "MultiAsset"%string] [] (TVariant [(Variant "None"%string [] 0%N []); (Variant "All"%string [] 1%N []); (Variant "AllFungible"%string [] 2%N []); (Variant "AllNonFungible"%string [] 3%N []); (Variant "AllAbstractFungible"%string [(Field (Some "id"%string) 10%N (Some "Vec<u8>"%string) [])] 4%N []); (Variant "AllAbstractNonFungible"%string [(Field (Some "class"%string) 10%N (Some "Vec<u8>"%string) [])] 5%N []); (Variant "AllConcreteFungible"%string [(Field (Some "id"%string) 96%N (Some "MultiLocation"%string) [])] 6%N []); (Variant "AllConcreteNonFungible"%string [(Field (Some "class"%string) 96%N (Some "MultiLocation"%string) [])] 7%N []); (Variant "AbstractFungible"%string [(Field (Some "id"%string) 10%N (Some "Vec<u8>"%string) []); (Field (Some "amount"%string) 50%N (Some "u128"%string) [])] 8%N []); (Variant "AbstractNonFungible"%string [(Field (Some "class"%string) 10%N (Some "Vec<u8>"%string) []); (Field (Some "instance"%string) 80%N (Some "AssetInstance"%string) [])] 9%N []); (Variant "ConcreteFungible"%string [(Field (Some "id"%string) 96%N (Some "MultiLocation"%string) []); (Field (Some "amount"%string) 50%N (Some "u128"%string) [])] 10%N []); (Variant "ConcreteNonFungible"%string [(Field (Some "class"%string) 96%N (Some "MultiLocation"%string) []); (Field (Some "instance"%string) 80%N (Some "AssetInstance"%string) [])] 11%N [])]) []).
Definition md_t96 : ty := (Ty ["xcm"%string; "v0"%string; "multi_location"%string; "MultiLocation"%string] [] (TVariant [(Variant "Null"%string [] 0%N []); (Variant "X1"%string [(Field None 97%N (Some "Junction"%string) [])] 1%N []); (Variant "X2"%string [(Field None 97%N (Some "Junction"%string) []); (Field None 97%N (Some "Junction"%string) [])] 2%N []); (Variant "X3"%string [(Field None 97%N (Some "Junction"%string) []); (Field None 97%N (Some "Junction"%string) []); (Field None 97%N (Some "Junction"%string) [])] 3%N []); (Variant "X4"%string [(Field None 97%N (Some "Junction"%string) []); (Field None 97%N (Some "Junction"%string) []); (Field None 97%N (Some "Junction"%string) []); (Field None 97%N (Some "Junction"%string) [])] 4%N []); (Variant "X5"%string [(Field None 97%N (Some "Junction"%string) []); (Field None 97%N (Some "Junction"%string) []); (Field None 97%N (Some "Junction"%string) []); (Field None 97%N (Some "Junction"%string) []); (Field None 97%N (Some "Junction"%string) [])] 5%N []); (Variant "X6"%string [(Field None 97%N (Some "Junction"%string) []); (Field None 97%N (Some "Junction"%string) []); (Field None 97%N (Some "Junction"%string) []); (Field None 97%N (Some "Junction"%string) []); (Field None 97%N (Some "Junction"%string) []); (Field None 97%N (Some "Junction"%string) [])] 6%N []); (Variant "X7"%string [(Field None 97%N (Some "Junction"%string) []); (Field None 97%N (Some "Junction"%string) []); (Field None 97%N (Some "Junction"%string) []); (Field None 97%N (Some "Junction"%string) []); (Field None 97%N (Some "Junction"%string) []); (Field None 97%N (Some "Junction"%string) []); (Field None 97%N (Some "Junction"%string) [])] 7%N []); (Variant "X8"%string [(Field None 97%N (Some "Junction"%string) []); (Field None 97%N (Some "Junction"%string) []); (Field None 97%N (Some "Junction"%string) []); (Field None 97%N (Some "Junction"%string) []); (Field None 97%N (Some "Junction"%string) []); (Field None 97%N (Some "Junction"%string) []); (Field None 97%N (Some "Junction"%string) []); (Field None 97%N (Some "Junction"%string) [])] 8%N [])]) []).
Definition md_t97 : ty := (Ty ["xcm"%string; "v0"%string; "junction"%string; "Junction"%string] [] (TVariant [(Variant "Parent"%string [] 0%N []); (Variant "Parachain"%string [(Field None 67%N (Some "u32"%string) [])] 1%N []); (Variant "AccountId32"%string [(Field (Some "network"%string) 68%N (Some "NetworkId"%string) []); (Field (Some "id"%string) 1%N (Some "[u8; 32]"%string) [])] 2%N []); (Variant "AccountIndex64"%string [(Field (Some "network"%string) 68%N (Some "NetworkId"%string) []); (Field (Some "index"%string) 69%N (Some "u64"%string) [])] 3%N []); (Variant "AccountKey20"%string [(Field (Some "network"%string) 68%N (Some "NetworkId"%string) []); (Field (Some "key"%string) 45%N (Some "[u8; 20]"%string) [])] 4%N []); (Variant "PalletInstance"%string [(Field None 2%N (Some "u8"%string) [])] 5%N []); (Variant "GeneralIndex"%string [(Field None 50%N (Some "u128"%string) [])] 6%N []); (Variant "GeneralKey"%string [(Field None 10%N (Some "Vec<u8>"%string) [])] 7%N []); (Variant "OnlyChild"%string [] 8%N []); (Variant "Plurality"%string [(Field (Some "id"%string) 70%N (Some "BodyId"%string) []); (Field (Some "part"%string) 71%N (Some "BodyPart"%string) [])] 9%N [])]) []).
Definition md_t98 : ty := (Ty ["xcm"%string; "VersionedMultiLocation"%string] [] (TVariant [(Variant "V0"%string [(Field None 96%N (Some "v0::MultiLocation"%string) [])] 0%N []); (Variant "V1"%string [(Field None 64%N (Some "v1::MultiLocation"%string) [])] 1%N [])]) []).
Definition md_t99 : ty := (Ty ["cumulus_pallet_xcm"%string; "pallet"%string; "Event"%string] [("T"%string,None)] (TVariant [(Variant "InvalidFormat"%string [(Field None 81%N (Some "[u8; 8]"%string) [])] 0%N ["Downward message is invalid XCM."%string; "\[ id \]"%string]); (Variant "UnsupportedVersion"%string [(Field None 81%N (Some "[u8; 8]"%string) [])] 1%N ["Downward message is unsupported version of XCM."%string; "\[ id \]"%string]); (Variant "ExecutedDownward"%string [(Field None 81%N (Some "[u8; 8]"%string) []); (Field None 63%N (Some "Outcome"%string) [])] 2%N ["Downward message executed with the given outcome."%string; "\[ id, outcome \]"%string])]) ["
			The [event](https://docs.substrate.io/v3/runtime/events-and-errors) emitted
			by this pallet.
			"%string]).
Definition md_t100 : ty := (Ty ["cumulus_pallet_dmp_queue"%string; "pallet"%string; "Event"%string] [("T"%string,None)] (TVariant [(Variant "InvalidFormat"%string [(Field None 1%N (Some "MessageId"%string) [])] 0%N ["Downward message is invalid XCM."%string; "\[ id \]"%string]); (Variant "UnsupportedVersion"%string [(Field None 1%N (Some "MessageId"%string) [])] 1%N ["Downward message is unsupported version of XCM."%string; "\[ id \]"%string]); (Variant "ExecutedDownward"%string [(Field None 1%N (Some "MessageId"%string) []); (Field None 63%N (Some "Outcome"%string) [])] 2%N ["Downward message executed with the given outcome."%string; "\[ id, outcome \]"%string]); (Variant "WeightExhausted"%string [(Field None 1%N (Some "MessageId"%string) []); (Field None 8%N (Some "Weight"%string) []); (Field None 8%N (Some "Weight"%string) [])] 3%N ["The weight limit for handling downward messages was reached."%string; "\[ id, remaining, required \]"%string]); (Variant "OverweightEnqueued"%string [(Field None 1%N (Some "MessageId"%string) []); (Field None 8%N (Some "OverweightIndex"%string) []); (Field None 8%N (Some "Weight"%string) [])] 4%N ["Downward message is overweight and was placed in the overweight queue."%string; "\[ id, index, required \]"%string]); (Variant "OverweightServiced"%string [(Field None 8%N (Some "OverweightIndex"%string) []); (Field None 8%N (Some "Weight"%string) [])] 5%N ["Downward message from the overweight queue was executed."%string; "\[ index, used \]"%string])]) ["
			The [event](https://docs.substrate.io/v3/runtime/events-and-errors) emitted
			by this pallet.
			"%string]).
Definition md_t101 : ty := (Ty ["orml_xtokens"%string; "module"%string; "Event"%string] [("T"%string,None)] (TVariant [(Variant "Transferred"%string [(Field None 0%N (Some "T::AccountId"%string) []); (Field None 41%N (Some "T::CurrencyId"%string) []); (Field None 6%N (Some "T::Balance"%string) []); (Field None 64%N (Some "MultiLocation"%string) [])] 0%N ["Transferred. \[sender, currency_id, amount, dest\]"%string]); (Variant "TransferredWithFee"%string [(Field None 0%N (Some "T::AccountId"%string) []); (Field None 41%N (Some "T::CurrencyId"%string) []); (Field None 6%N (Some "T::Balance"%string) []); (Field None 6%N (Some "T::Balance"%string) []); (Field None 64%N (Some "MultiLocation"%string) [])] 1%N ["Transferred with fee. \[sender, currency_id, amount, fee, dest\]"%string]); (Variant "TransferredMultiAsset"%string [(Field None 0%N (Some "T::AccountId"%string) []); (Field None 77%N (Some "MultiAsset"%string) []); (Field None 64%N (Some "MultiLocation"%string) [])] 2%N ["Transferred `MultiAsset`. \[sender, asset, dest\]"%string]); (Variant "TransferredMultiAssetWithFee"%string [(Field None 0%N (Some "T::AccountId"%string) []); (Field None 77%N (Some "MultiAsset"%string) []); (Field None 77%N (Some "MultiAsset"%string) []); (Field None 64%N (Some "MultiLocation"%string) [])] 3%N ["Transferred `MultiAsset` with fee. \[sender, asset, fee, dest\]"%string])]) ["
			The [event](https://docs.substrate.io/v3/runtime/events-and-errors) emitted
			by this pallet.
			"%string]).
Definition md_t102 : ty := (Ty ["orml_unknown_tokens"%string; "module"%string; "Event"%string] [] (TVariant [(Variant "Deposited"%string [(Field None 77%N (Some "MultiAsset"%string) []); (Field None 64%N (Some "MultiLocation"%string) [])] 0%N ["Deposit success. [asset, to]"%string]); (Variant "Withdrawn"%string [(Field None 77%N (Some "MultiAsset"%string) []); (Field None 64%N (Some "MultiLocation"%string) [])] 1%N ["Withdraw success. [asset, from]"%string])]) ["
			The [event](https://docs.substrate.io/v3/runtime/events-and-errors) emitted
			by this pallet.
			"%string]).
Definition md_t103 : ty := (Ty ["orml_xcm"%string; "module"%string; "Event"%string] [("T"%string,None)] (TVariant [(Variant "Sent"%string [(Field None 64%N (Some "MultiLocation"%string) []); (Field None 72%N (Some "Xcm<()>"%string) [])] 0%N ["XCM message sent. \[to, message\]"%string])]) ["
			The [event](https://docs.substrate.io/v3/runtime/events-and-errors) emitted
			by this pallet.
			"%string]).
Definition md_t104 : ty := (Ty ["orml_authority"%string; "module"%string; "Event"%string] [("T"%string,None)] (TVariant [(Variant "Dispatched"%string [(Field None 28%N (Some "DispatchResult"%string) [])] 0%N ["A call is dispatched. [result]"%string]); (Variant "Scheduled"%string [(Field None 105%N (Some "T::PalletsOrigin"%string) []); (Field None 4%N (Some "ScheduleTaskIndex"%string) [])] 1%N ["A call is scheduled. [origin, index]"%string]); (Variant "FastTracked"%string [(Field None 105%N (Some "T::PalletsOrigin"%string) []); (Field None 4%N (Some "ScheduleTaskIndex"%string) []); (Field None 4%N (Some "T::BlockNumber"%string) [])] 2%N ["A scheduled call is fast tracked. [origin, index, when]"%string]); (Variant "Delayed"%string [(Field None 105%N (Some "T::PalletsOrigin"%string) []); (Field None 4%N (Some "ScheduleTaskIndex"%string) []); (Field None 4%N (Some "T::BlockNumber"%string) [])] 3%N ["A scheduled call is delayed. [origin, index, when]"%string]); (Variant "Cancelled"%string [(Field None 105%N (Some "T::PalletsOrigin"%string) []); (Field None 4%N (Some "ScheduleTaskIndex"%string) [])] 4%N ["A scheduled call is cancelled. [origin, index]"%string]); (Variant "AuthorizedCall"%string [(Field None 9%N (Some "T::Hash"%string) []); (Field None 116%N (Some "Option<T::AccountId>"%string) [])] 5%N ["A call is authorized. \[hash, caller\]"%string]); (Variant "RemovedAuthorizedCall"%string [(Field None 9%N (Some "T::Hash"%string) [])] 6%N ["An authorized call was removed. \[hash\]"%string]); (Variant "TriggeredCallBy"%string [(Field None 9%N (Some "T::Hash"%string) []); (Field None 0%N (Some "T::AccountId"%string) [])] 7%N ["An authorized call was triggered. \[hash, caller\]"%string])]) ["
			The [event](https://docs.substrate.io/v3/runtime/events-and-errors) emitted
			by this pallet.
			"%string]).
Definition md_t105 : ty := (Ty ["acala_runtime"%string; "OriginCaller"%string] [] (TVariant [(Variant "system"%string [(Field None 106%N (Some "frame_system::Origin<Runtime>"%string) [])] 0%N []); (Variant "PolkadotXcm"%string [(Field None 107%N (Some "pallet_xcm::Origin"%string) [])] 51%N []); (Variant "CumulusXcm"%string [(Field None 108%N (Some "cumulus_pallet_xcm::Origin"%string) [])] 52%N []); (Variant "Authority"%string [(Field None 110%N (Some "orml_authority::Origin<Runtime>"%string) [])] 60%N []); (Variant "GeneralCouncil"%string [(Field None 111%N (Some "pallet_collective::Origin<Runtime, pallet_collective::Instance1>"%string) [])] 61%N []); (Variant "FinancialCouncil"%string [(Field None 112%N (Some "pallet_collective::Origin<Runtime, pallet_collective::Instance2>"%string) [])] 63%N []); (Variant "HomaCouncil"%string [(Field None 113%N (Some "pallet_collective::Origin<Runtime, pallet_collective::Instance3>"%string) [])] 65%N []); (Variant "TechnicalCommittee"%string [(Field None 114%N (Some "pallet_collective::Origin<Runtime, pallet_collective::Instance4>"%string) [])] 67%N []); (Variant "Void"%string [(Field None 115%N (Some "self::sp_api_hidden_includes_construct_runtime::hidden_include::Void"%string) [])] 8%N [])]) []).
Definition md_t106 : ty := (Ty ["frame_system"%string; "RawOrigin"%string] [("AccountId"%string,(Some 0%N))] (TVariant [(Variant "Root"%string [] 0%N []); (Variant "Signed"%string [(Field None 0%N (Some "AccountId"%string) [])] 1%N []); (Variant "None"%string [] 2%N [])]) []).
Definition md_t107 : ty := (Ty ["pallet_xcm"%string; "pallet"%string; "Origin"%string] [] (TVariant [(Variant "Xcm"%string [(Field None 64%N (Some "MultiLocation"%string) [])] 0%N []); (Variant "Response"%string [(Field None 64%N (Some "MultiLocation"%string) [])] 1%N [])]) []).
Definition md_t108 : ty := (Ty ["cumulus_pallet_xcm"%string; "pallet"%string; "Origin"%string] [] (TVariant [(Variant "Relay"%string [] 0%N []); (Variant "SiblingParachain"%string [(Field None 109%N (Some "ParaId"%string) [])] 1%N [])]) []).
Definition md_t109 : ty := (Ty ["polkadot_parachain"%string; "primitives"%string; "Id"%string] [] (TComposite [(Field None 4%N (Some "u32"%string) [])]) []).
Definition md_t110 : ty := (Ty ["orml_authority"%string; "DelayedOrigin"%string] [("BlockNumber"%string,(Some 4%N)); ("PalletsOrigin"%string,(Some 105%N))] (TComposite [(Field (Some "delay"%string) 4%N (Some "BlockNumber"%string) []); (Field (Some "origin"%string) 105%N (Some "Box<PalletsOrigin>"%string) [])]) []).
Definition md_t111 : ty := (Ty ["pallet_collective"%string; "RawOrigin"%string] [("AccountId"%string,(Some 0%N)); ("I"%string,None)] (TVariant [(Variant "Members"%string [(Field None 4%N (Some "MemberCount"%string) []); (Field None 4%N (Some "MemberCount"%string) [])] 0%N []); (Variant "Member"%string [(Field None 0%N (Some "AccountId"%string) [])] 1%N []); (Variant "_Phantom"%string [] 2%N [])]) []).
Definition md_t112 : ty := (Ty ["pallet_collective"%string; "RawOrigin"%string] [("AccountId"%string,(Some 0%N)); ("I"%string,None)] (TVariant [(Variant "Members"%string [(Field None 4%N (Some "MemberCount"%string) []); (Field None 4%N (Some "MemberCount"%string) [])] 0%N []); (Variant "Member"%string [(Field None 0%N (Some "AccountId"%string) [])] 1%N []); (Variant "_Phantom"%string [] 2%N [])]) []).
Definition md_t113 : ty := (Ty ["pallet_collective"%string; "RawOrigin"%string] [("AccountId"%string,(Some 0%N)); ("I"%string,None)] (TVariant [(Variant "Members"%string [(Field None 4%N (Some "MemberCount"%string) []); (Field None 4%N (Some "MemberCount"%string) [])] 0%N []); (Variant "Member"%string [(Field None 0%N (Some "AccountId"%string) [])] 1%N []); (Variant "_Phantom"%string [] 2%N [])]) []).
Definition md_t114 : ty := (Ty ["pallet_collective"%string; "RawOrigin"%string] [("AccountId"%string,(Some 0%N)); ("I"%string,None)] (TVariant [(Variant "Members"%string [(Field None 4%N (Some "MemberCount"%string) []); (Field None 4%N (Some "MemberCount"%string) [])] 0%N []); (Variant "Member"%string [(Field None 0%N (Some "AccountId"%string) [])] 1%N []); (Variant "_Phantom"%string [] 2%N [])]) []).
Definition md_t115 : ty := (Ty ["sp_core"%string; "Void"%string] [] (TVariant []) []).
Definition md_t116 : ty := (Ty ["Option"%string] [("T"%string,(Some 0%N))] (TVariant [(Variant "None"%string [] 0%N []); (Variant "Some"%string [(Field None 0%N None [])] 1%N [])]) []).
Definition md_t117 : ty := (Ty ["pallet_collective"%string; "pallet"%string; "Event"%string] [("T"%string,None); ("I"%string,None)] (TVariant [(Variant "Proposed"%string [(Field (Some "account"%string) 0%N (Some "T::AccountId"%string) []); (Field (Some "proposal_index"%string) 4%N (Some "ProposalIndex"%string) []); (Field (Some "proposal_hash"%string) 9%N (Some "T::Hash"%string) []); (Field (Some "threshold"%string) 4%N (Some "MemberCount"%string) [])] 0%N ["A motion (given hash) has been proposed (by given account) with a threshold (given"%string; "`MemberCount`)."%string]); (Variant "Voted"%string [(Field (Some "account"%string) 0%N (Some "T::AccountId"%string) []); (Field (Some "proposal_hash"%string) 9%N (Some "T::Hash"%string) []); (Field (Some "voted"%string) 118%N (Some "bool"%string) []); (Field (Some "yes"%string) 4%N (Some "MemberCount"%string) []); (Field (Some "no"%string) 4%N (Some "MemberCount"%string) [])] 1%N ["A motion (given hash) has been voted on by given account, leaving"%string; "a tally (yes votes and no votes given respectively as `MemberCount`)."%string]); (Variant "Approved"%string [(Field (Some "proposal_hash"%string) 9%N (Some "T::Hash"%string) [])] 2%N ["A motion was approved by the required threshold."%string]); (Variant "Disapproved"%string [(Field (Some "proposal_hash"%string) 9%N (Some "T::Hash"%string) [])] 3%N ["A motion was not approved by the required threshold."%string]); (Variant "Executed"%string [(Field (Some "proposal_hash"%string) 9%N (Some "T::Hash"%string) []); (Field (Some "result"%string) 28%N (Some "DispatchResult"%string) [])] 4%N ["A motion was executed; result will be `Ok` if it returned without error."%string]); (Variant "MemberExecuted"%string [(Field (Some "proposal_hash"%string) 9%N (Some "T::Hash"%string) []); (Field (Some "result"%string) 28%N (Some "DispatchResult"%string) [])] 5%N ["A single member did some action; result will be `Ok` if it returned without error."%string]); (Variant "Closed"%string [(Field (Some "proposal_hash"%string) 9%N (Some "T::Hash"%string) []); (Field (Some "yes"%string) 4%N (Some "MemberCount"%string) []); (Field (Some "no"%string) 4%N (Some "MemberCount"%string) [])] 6%N ["A proposal was closed because its threshold was reached or after its duration was up."%string])]) ["
			The [event](https://docs.substrate.io/v3/runtime/events-and-errors) emitted
			by this pallet.
			"%string]).
Definition md_t118 : ty := (Ty [] [] (TPrimitive PrBool) []).
Definition md_t119 : ty := (Ty ["pallet_membership"%string; "pallet"%string; "Event"%string] [("T"%string,None); ("I"%string,None)] (TVariant [(Variant "MemberAdded"%string [] 0%N ["The given member was added; see the transaction for who."%string]); (Variant "MemberRemoved"%string [] 1%N ["The given member was removed; see the transaction for who."%string]); (Variant "MembersSwapped"%string [] 2%N ["Two members were swapped; see the transaction for who."%string]); (Variant "MembersReset"%string [] 3%N ["The membership was reset; see the transaction for who the new set is."%string]); (Variant "KeyChanged"%string [] 4%N ["One of the members' keys changed."%string]); (Variant "Dummy"%string [] 5%N ["Phantom member, never used."%string])]) ["
			The [event](https://docs.substrate.io/v3/runtime/events-and-errors) emitted
			by this pallet.
			"%string]).
Definition md_t120 : ty := (Ty ["pallet_collective"%string; "pallet"%string; "Event"%string] [("T"%string,None); ("I"%string,None)] (TVariant [(Variant "Proposed"%string [(Field (Some "account"%string) 0%N (Some "T::AccountId"%string) []); (Field (Some "proposal_index"%string) 4%N (Some "ProposalIndex"%string) []); (Field (Some "proposal_hash"%string) 9%N (Some "T::Hash"%string) []); (Field (Some "threshold"%string) 4%N (Some "MemberCount"%string) [])] 0%N ["A motion (given hash) has been proposed (by given account) with a threshold (given"%string; "`MemberCount`)."%string]); (Variant "Voted"%string [(Field (Some "account"%string) 0%N (Some "T::AccountId"%string) []); (Field (Some "proposal_hash"%string) 9%N (Some "T::Hash"%string) []); (Field (Some "voted"%string) 118%N (Some "bool"%string) []); (Field (Some "yes"%string) 4%N (Some "MemberCount"%string) []); (Field (Some "no"%string) 4%N (Some "MemberCount"%string) [])] 1%N ["A motion (given hash) has been voted on by given account, leaving"%string; "a tally (yes votes and no votes given respectively as `MemberCount`)."%string]); (Variant "Approved"%string [(Field (Some "proposal_hash"%string) 9%N (Some "T::Hash"%string) [])] 2%N ["A motion was approved by the required threshold."%string]); (Variant "Disapproved"%string [(Field (Some "proposal_hash"%string) 9%N (Some "T::Hash"%string) [])] 3%N ["A motion was not approved by the required threshold."%string]); (Variant "Executed"%string [(Field (Some "proposal_hash"%string) 9%N (Some "T::Hash"%string) []); (Field (Some "result"%string) 28%N (Some "DispatchResult"%string) [])] 4%N ["A motion was executed; result will be `Ok` if it returned without error."%string]); (Variant "MemberExecuted"%string [(Field (Some "proposal_hash"%string) 9%N (Some "T::Hash"%string) []); (Field (Some "result"%string) 28%N (Some "DispatchResult"%string) [])] 5%N ["A single member did some action; result will be `Ok` if it returned without error."%string]); (Variant "Closed"%string [(Field (Some "proposal_hash"%string) 9%N (Some "T::Hash"%string) []); (Field (Some "yes"%string) 4%N (Some "MemberCount"%string) []); (Field (Some "no"%string) 4%N (Some "MemberCount"%string) [])] 6%N ["A proposal was closed because its threshold was reached or after its duration was up."%string])]) ["
			The [event](https://docs.substrate.io/v3/runtime/events-and-errors) emitted
			by this pallet.
			"%string]).
Definition md_t121 : ty := (Ty ["pallet_membership"%string; "pallet"%string; "Event"%string] [("T"%string,None); ("I"%string,None)] (TVariant [(Variant "MemberAdded"%string [] 0%N ["The given member was added; see the transaction for who."%string]); (Variant "MemberRemoved"%string [] 1%N ["The given member was removed; see the transaction for who."%string]); (Variant "MembersSwapped"%string [] 2%N ["Two members were swapped; see the transaction for who."%string]); (Variant "MembersReset"%string [] 3%N ["The membership was reset; see the transaction for who the new set is."%string]); (Variant "KeyChanged"%string [] 4%N ["One of the members' keys changed."%string]); (Variant "Dummy"%string [] 5%N ["Phantom member, never used."%string])]) ["
			The [event](https://docs.substrate.io/v3/runtime/events-and-errors) emitted
			by this pallet.
			"%string]).
Definition md_t122 : ty := (Ty ["pallet_collective"%string; "pallet"%string; "Event"%string] [("T"%string,None); ("I"%string,None)] (TVariant [(Variant "Proposed"%string [(Field (Some "account"%string) 0%N (Some "T::AccountId"%string) []); (Field (Some "proposal_index"%string) 4%N (Some "ProposalIndex"%string) []); (Field (Some "proposal_hash"%string) 9%N (Some "T::Hash"%string) []); (Field (Some "threshold"%string) 4%N (Some "MemberCount"%string) [])] 0%N ["A motion (given hash) has been proposed (by given account) with a threshold (given"%string; "`MemberCount`)."%string]); (Variant "Voted"%string [(Field (Some "account"%string) 0%N (Some "T::AccountId"%string) []); (Field (Some "proposal_hash"%string) 9%N (Some "T::Hash"%string) []); (Field (Some "voted"%string) 118%N (Some "bool"%string) []); (Field (Some "yes"%string) 4%N (Some "MemberCount"%string) []); (Field (Some "no"%string) 4%N (Some "MemberCount"%string) [])] 1%N ["A motion (given hash) has been voted on by given account, leaving"%string; "a tally (yes votes and no votes given respectively as `MemberCount`)."%string]); (Variant "Approved"%string [(Field (Some "proposal_hash"%string) 9%N (Some "T::Hash"%string) [])] 2%N ["A motion was approved by the required threshold."%string]); (Variant "Disapproved"%string [(Field (Some "proposal_hash"%string) 9%N (Some "T::Hash"%string) [])] 3%N ["A motion was not approved by the required threshold."%string]); (Variant "Executed"%string [(Field (Some "proposal_hash"%string) 9%N (Some "T::Hash"%string) []); (Field (Some "result"%string) 28%N (Some "DispatchResult"%string) [])] 4%N ["A motion was executed; result will be `Ok` if it returned without error."%string]); (Variant "MemberExecuted"%string [(Field (Some "proposal_hash"%string) 9%N (Some "T::Hash"%string) []); (Field (Some "result"%string) 28%N (Some "DispatchResult"%string) [])] 5%N ["A single member did some action; result will be `Ok` if it returned without error."%string]); (Variant "Closed"%string [(Field (Some "proposal_hash"%string) 9%N (Some "T::Hash"%string) []); (Field (Some "yes"%string) 4%N (Some "MemberCount"%string) []); (Field (Some "no"%string) 4%N (Some "MemberCount"%string) [])] 6%N ["A proposal was closed because its threshold was reached or after its duration was up."%string])]) ["
			The [event](https://docs.substrate.io/v3/runtime/events-and-errors) emitted
			by this pallet.
			"%string]).
Definition md_t123 : ty := (Ty ["pallet_membership"%string; "pallet"%string; "Event"%string] [("T"%string,None); ("I"%string,None)] (TVariant [(Variant "MemberAdded"%string [] 0%N ["The given member was added; see the transaction for who."%string]); (Variant "MemberRemoved"%string [] 1%N ["The given member was removed; see the transaction for who."%string]); (Variant "MembersSwapped"%string [] 2%N ["Two members were swapped; see the transaction for who."%string]); (Variant "MembersReset"%string [] 3%N ["The membership was reset; see the transaction for who the new set is."%string]); (Variant "KeyChanged"%string [] 4%N ["One of the members' keys changed."%string]); (Variant "Dummy"%string [] 5%N ["Phantom member, never used."%string])]) ["
			The [event](https://docs.substrate.io/v3/runtime/events-and-errors) emitted
			by this pallet.
			"%string]).
Definition md_t124 : ty := (Ty ["pallet_collective"%string; "pallet"%string; "Event"%string] [("T"%string,None); ("I"%string,None)] (TVariant [(Variant "Proposed"%string [(Field (Some "account"%string) 0%N (Some "T::AccountId"%string) []); (Field (Some "proposal_index"%string) 4%N (Some "ProposalIndex"%string) []); (Field (Some "proposal_hash"%string) 9%N (Some "T::Hash"%string) []); (Field (Some "threshold"%string) 4%N (Some "MemberCount"%string) [])] 0%N ["A motion (given hash) has been proposed (by given account) with a threshold (given"%string; "`MemberCount`)."%string]); (Variant "Voted"%string [(Field (Some "account"%string) 0%N (Some "T::AccountId"%string) []); (Field (Some "proposal_hash"%string) 9%N (Some "T::Hash"%string) []); (Field (Some "voted"%string) 118%N (Some "bool"%string) []); (Field (Some "yes"%string) 4%N (Some "MemberCount"%string) []); (Field (Some "no"%string) 4%N (Some "MemberCount"%string) [])] 1%N ["A motion (given hash) has been voted on by given account, leaving"%string; "a tally (yes votes and no votes given respectively as `MemberCount`)."%string]); (Variant "Approved"%string [(Field (Some "proposal_hash"%string) 9%N (Some "T::Hash"%string) [])] 2%N ["A motion was approved by the required threshold."%string]); (Variant "Disapproved"%string [(Field (Some "proposal_hash"%string) 9%N (Some "T::Hash"%string) [])] 3%N ["A motion was not approved by the required threshold."%string]); (Variant "Executed"%string [(Field (Some "proposal_hash"%string) 9%N (Some "T::Hash"%string) []); (Field (Some "result"%string) 28%N (Some "DispatchResult"%string) [])] 4%N ["A motion was executed; result will be `Ok` if it returned without error."%string]); (Variant "MemberExecuted"%string [(Field (Some "proposal_hash"%string) 9%N (Some "T::Hash"%string) []); (Field (Some "result"%string) 28%N (Some "DispatchResult"%string) [])] 5%N ["A single member did some action; result will be `Ok` if it returned without error."%string]); (Variant "Closed"%string [(Field (Some "proposal_hash"%string) 9%N (Some "T::Hash"%string) []); (Field (Some "yes"%string) 4%N (Some "MemberCount"%string) []); (Field (Some "no"%string) 4%N (Some "MemberCount"%string) [])] 6%N ["A proposal was closed because its threshold was reached or after its duration was up."%string])]) ["
			The [event](https://docs.substrate.io/v3/runtime/events-and-errors) emitted
			by this pallet.
			"%string]).
Definition md_t125 : ty := (Ty ["pallet_membership"%string; "pallet"%string; "Event"%string] [("T"%string,None); ("I"%string,None)] (TVariant [(Variant "MemberAdded"%string [] 0%N ["The given member was added; see the transaction for who."%string]); (Variant "MemberRemoved"%string [] 1%N ["The given member was removed; see the transaction for who."%string]); (Variant "MembersSwapped"%string [] 2%N ["Two members were swapped; see the transaction for who."%string]); (Variant "MembersReset"%string [] 3%N ["The membership was reset; see the transaction for who the new set is."%string]); (Variant "KeyChanged"%string [] 4%N ["One of the members' keys changed."%string]); (Variant "Dummy"%string [] 5%N ["Phantom member, never used."%string])]) ["
			The [event](https://docs.substrate.io/v3/runtime/events-and-errors) emitted
			by this pallet.
			"%string]).
Definition md_t126 : ty := (Ty ["pallet_democracy"%string; "pallet"%string; "Event"%string] [("T"%string,None)] (TVariant [(Variant "Proposed"%string [(Field (Some "proposal_index"%string) 4%N (Some "PropIndex"%string) []); (Field (Some "deposit"%string) 6%N (Some "BalanceOf<T>"%string) [])] 0%N ["A motion has been proposed by a public account."%string]); (Variant "Tabled"%string [(Field (Some "proposal_index"%string) 4%N (Some "PropIndex"%string) []); (Field (Some "deposit"%string) 6%N (Some "BalanceOf<T>"%string) []); (Field (Some "depositors"%string) 56%N (Some "Vec<T::AccountId>"%string) [])] 1%N ["A public proposal has been tabled for referendum vote."%string]); (Variant "ExternalTabled"%string [] 2%N ["An external proposal has been tabled."%string]); (Variant "Started"%string [(Field (Some "ref_index"%string) 4%N (Some "ReferendumIndex"%string) []); (Field (Some "threshold"%string) 127%N (Some "VoteThreshold"%string) [])] 3%N ["A referendum has begun."%string]); (Variant "Passed"%string [(Field (Some "ref_index"%string) 4%N (Some "ReferendumIndex"%string) [])] 4%N ["A proposal has been approved by referendum."%string]); (Variant "NotPassed"%string [(Field (Some "ref_index"%string) 4%N (Some "ReferendumIndex"%string) [])] 5%N ["A proposal has been rejected by referendum."%string]); (Variant "Cancelled"%string [(Field (Some "ref_index"%string) 4%N (Some "ReferendumIndex"%string) [])] 6%N ["A referendum has been cancelled."%string]); (Variant "Executed"%string [(Field (Some "ref_index"%string) 4%N (Some "ReferendumIndex"%string) []); (Field (Some "result"%string) 28%N (Some "DispatchResult"%string) [])] 7%N ["A proposal has been enacted."%string]); (Variant "Delegated"%string [(Field (Some "who"%string) 0%N (Some "T::AccountId"%string) []); (Field (Some "target"%string) 0%N (Some "T::AccountId"%string) [])] 8%N ["An account has delegated their vote to another account."%string]); (Variant "Undelegated"%string [(Field (Some "account"%string) 0%N (Some "T::AccountId"%string) [])] 9%N ["An account has cancelled a previous delegation operation."%string]); (Variant "Vetoed"%string [(Field (Some "who"%string) 0%N (Some "T::AccountId"%string) []); (Field (Some "proposal_hash"%string) 9%N (Some "T::Hash"%string) []); (Field (Some "until"%string) 4%N (Some "T::BlockNumber"%string) [])] 10%N ["An external proposal has been vetoed."%string]); (Variant "PreimageNoted"%string [(Field (Some "proposal_hash"%string) 9%N (Some "T::Hash"%string) []); (Field (Some "who"%string) 0%N (Some "T::AccountId"%string) []); (Field (Some "deposit"%string) 6%N (Some "BalanceOf<T>"%string) [])] 11%N ["A proposal's preimage was noted, and the deposit taken."%string]); (Variant "PreimageUsed"%string [(Field (Some "proposal_hash"%string) 9%N (Some "T::Hash"%string) []); (Field (Some "provider"%string) 0%N (Some "T::AccountId"%string) []); (Field (Some "deposit"%string) 6%N (Some "BalanceOf<T>"%string) [])] 12%N ["A proposal preimage was removed and used (the deposit was returned)."%string]); (Variant "PreimageInvalid"%string [(Field (Some "proposal_hash"%string) 9%N (Some "T::Hash"%string) []); (Field (Some "ref_index"%string) 4%N (Some "ReferendumIndex"%string) [])] 13%N ["A proposal could not be executed because its preimage was invalid."%string]); (Variant "PreimageMissing"%string [(Field (Some "proposal_hash"%string) 9%N (Some "T::Hash"%string) []); (Field (Some "ref_index"%string) 4%N (Some "ReferendumIndex"%string) [])] 14%N ["A proposal could not be executed because its preimage was missing."%string]); (Variant "PreimageReaped"%string [(Field (Some "proposal_hash"%string) 9%N (Some "T::Hash"%string) []); (Field (Some "provider"%string) 0%N (Some "T::AccountId"%string) []); (Field (Some "deposit"%string) 6%N (Some "BalanceOf<T>"%string) []); (Field (Some "reaper"%string) 0%N (Some "T::AccountId"%string) [])] 15%N ["A registered preimage was removed and the deposit collected by the reaper."%string]); (Variant "Blacklisted"%string [(Field (Some "proposal_hash"%string) 9%N (Some "T::Hash"%string) [])] 16%N ["A proposal_hash has been blacklisted permanently."%string])]) ["
			The [event](https://docs.substrate.io/v3/runtime/events-and-errors) emitted
			by this pallet.
			"%string]).
Definition md_t127 : ty := (Ty ["pallet_democracy"%string; "vote_threshold"%string; "VoteThreshold"%string] [] (TVariant [(Variant "SuperMajorityApprove"%string [] 0%N []); (Variant "SuperMajorityAgainst"%string [] 1%N []); (Variant "SimpleMajority"%string [] 2%N [])]) []).
Definition md_t128 : ty := (Ty ["orml_oracle"%string; "module"%string; "Event"%string] [("T"%string,None); ("I"%string,None)] (TVariant [(Variant "NewFeedData"%string [(Field None 0%N (Some "T::AccountId"%string) []); (Field None 129%N (Some "Vec<(T::OracleKey, T::OracleValue)>"%string) [])] 0%N ["New feed data is submitted. [sender, values]"%string])]) ["
			The [event](https://docs.substrate.io/v3/runtime/events-and-errors) emitted
			by this pallet.
			"%string]).
Definition md_t129 : ty := (Ty [] [] (TSequence 130%N) []).
Definition md_t130 : ty := (Ty [] [] (TTuple [41%N; 131%N]) []).
Definition md_t131 : ty := (Ty ["sp_arithmetic"%string; "fixed_point"%string; "FixedU128"%string] [] (TComposite [(Field None 6%N (Some "u128"%string) [])]) []).
Definition md_t132 : ty := (Ty ["pallet_membership"%string; "pallet"%string; "Event"%string] [("T"%string,None); ("I"%string,None)] (TVariant [(Variant "MemberAdded"%string [] 0%N ["The given member was added; see the transaction for who."%string]); (Variant "MemberRemoved"%string [] 1%N ["The given member was removed; see the transaction for who."%string]); (Variant "MembersSwapped"%string [] 2%N ["Two members were swapped; see the transaction for who."%string]); (Variant "MembersReset"%string [] 3%N ["The membership was reset; see the transaction for who the new set is."%string]); (Variant "KeyChanged"%string [] 4%N ["One of the members' keys changed."%string]); (Variant "Dummy"%string [] 5%N ["Phantom member, never used."%string])]) ["
			The [event](https://docs.substrate.io/v3/runtime/events-and-errors) emitted
			by this pallet.
			"%string]).
Definition md_t133 : ty := (Ty ["orml_auction"%string; "module"%string; "Event"%string] [("T"%string,None)] (TVariant [(Variant "Bid"%string [(Field None 4%N (Some "T::AuctionId"%string) []); (Field None 0%N (Some "T::AccountId"%string) []); (Field None 6%N (Some "T::Balance"%string) [])] 0%N ["A bid is placed. [auction_id, bidder, bidding_amount]"%string])]) ["
			The [event](https://docs.substrate.io/v3/runtime/events-and-errors) emitted
			by this pallet.
			"%string]).
Definition md_t134 : ty := (Ty ["module_prices"%string; "module"%string; "Event"%string] [("T"%string,None)] (TVariant [(Variant "LockPrice"%string [(Field None 41%N (Some "CurrencyId"%string) []); (Field None 131%N (Some "Price"%string) [])] 0%N ["Lock price. \[currency_id, locked_price\]"%string]); (Variant "UnlockPrice"%string [(Field None 41%N (Some "CurrencyId"%string) [])] 1%N ["Unlock price. \[currency_id\]"%string])]) ["
			The [event](https://docs.substrate.io/v3/runtime/events-and-errors) emitted
			by this pallet.
			"%string]).
Definition md_t135 : ty := (Ty ["module_dex"%string; "module"%string; "Event"%string] [("T"%string,None)] (TVariant [(Variant "AddProvision"%string [(Field None 0%N (Some "T::AccountId"%string) []); (Field None 41%N (Some "CurrencyId"%string) []); (Field None 6%N (Some "Balance"%string) []); (Field None 41%N (Some "CurrencyId"%string) []); (Field None 6%N (Some "Balance"%string) [])] 0%N ["add provision success \[who, currency_id_0, contribution_0,"%string; "currency_id_1, contribution_1\]"%string]); (Variant "AddLiquidity"%string [(Field None 0%N (Some "T::AccountId"%string) []); (Field None 41%N (Some "CurrencyId"%string) []); (Field None 6%N (Some "Balance"%string) []); (Field None 41%N (Some "CurrencyId"%string) []); (Field None 6%N (Some "Balance"%string) []); (Field None 6%N (Some "Balance"%string) [])] 1%N ["Add liquidity success. \[who, currency_id_0, pool_0_increment,"%string; "currency_id_1, pool_1_increment, share_increment\]"%string]); (Variant "RemoveLiquidity"%string [(Field None 0%N (Some "T::AccountId"%string) []); (Field None 41%N (Some "CurrencyId"%string) []); (Field None 6%N (Some "Balance"%string) []); (Field None 41%N (Some "CurrencyId"%string) []); (Field None 6%N (Some "Balance"%string) []); (Field None 6%N (Some "Balance"%string) [])] 2%N ["Remove liquidity from the trading pool success. \[who,"%string; "currency_id_0, pool_0_decrement, currency_id_1, pool_1_decrement,"%string; "share_decrement\]"%string]); (Variant "Swap"%string [(Field None 0%N (Some "T::AccountId"%string) []); (Field None 136%N (Some "Vec<CurrencyId>"%string) []); (Field None 137%N (Some "Vec<Balance>"%string) [])] 3%N ["Use supply currency to swap target currency. \[trader, trading_path,"%string; "liquidity_change_list\]"%string]); (Variant "EnableTradingPair"%string [(Field None 138%N (Some "TradingPair"%string) [])] 4%N ["Enable trading pair. \[trading_pair\]"%string]); (Variant "ListProvisioning"%string [(Field None 138%N (Some "TradingPair"%string) [])] 5%N ["List provisioning trading pair. \[trading_pair\]"%string]); (Variant "DisableTradingPair"%string [(Field None 138%N (Some "TradingPair"%string) [])] 6%N ["Disable trading pair. \[trading_pair\]"%string]); (Variant "ProvisioningToEnabled"%string [(Field None 138%N (Some "TradingPair"%string) []); (Field None 6%N (Some "Balance"%string) []); (Field None 6%N (Some "Balance"%string) []); (Field None 6%N (Some "Balance"%string) [])] 7%N ["Provisioning trading pair convert to Enabled. \[trading_pair,"%string; "pool_0_amount, pool_1_amount, total_share_amount\]"%string])]) ["
			The [event](https://docs.substrate.io/v3/runtime/events-and-errors) emitted
			by this pallet.
			"%string]).
Definition md_t136 : ty := (Ty [] [] (TSequence 41%N) []).
Definition md_t137 : ty := (Ty [] [] (TSequence 6%N) []).
Definition md_t138 : ty := (Ty ["acala_primitives"%string; "TradingPair"%string] [] (TComposite [(Field None 41%N (Some "CurrencyId"%string) []); (Field None 41%N (Some "CurrencyId"%string) [])]) []).
Definition md_t139 : ty := (Ty ["module_auction_manager"%string; "module"%string; "Event"%string] [("T"%string,None)] (TVariant [(Variant "NewCollateralAuction"%string [(Field None 4%N (Some "AuctionId"%string) []); (Field None 41%N (Some "CurrencyId"%string) []); (Field None 6%N (Some "Balance"%string) []); (Field None 6%N (Some "Balance"%string) [])] 0%N ["Collateral auction created. \[auction_id, collateral_type,"%string; "collateral_amount, target_bid_price\]"%string]); (Variant "CancelAuction"%string [(Field None 4%N (Some "AuctionId"%string) [])] 1%N ["Active auction cancelled. \[auction_id\]"%string]); (Variant "CollateralAuctionDealt"%string [(Field None 4%N (Some "AuctionId"%string) []); (Field None 41%N (Some "CurrencyId"%string) []); (Field None 6%N (Some "Balance"%string) []); (Field None 0%N (Some "T::AccountId"%string) []); (Field None 6%N (Some "Balance"%string) [])] 2%N ["Collateral auction dealt. \[auction_id, collateral_type,"%string; "collateral_amount, winner, payment_amount\]"%string]); (Variant "DEXTakeCollateralAuction"%string [(Field None 4%N (Some "AuctionId"%string) []); (Field None 41%N (Some "CurrencyId"%string) []); (Field None 6%N (Some "Balance"%string) []); (Field None 6%N (Some "Balance"%string) [])] 3%N ["Dex take collateral auction. \[auction_id, collateral_type,"%string; "collateral_amount, turnover\]"%string])]) ["
			The [event](https://docs.substrate.io/v3/runtime/events-and-errors) emitted
			by this pallet.
			"%string]).
Definition md_t140 : ty := (Ty ["module_loans"%string; "module"%string; "Event"%string] [("T"%string,None)] (TVariant [(Variant "PositionUpdated"%string [(Field None 0%N (Some "T::AccountId"%string) []); (Field None 41%N (Some "CurrencyId"%string) []); (Field None 47%N (Some "Amount"%string) []); (Field None 47%N (Some "Amount"%string) [])] 0%N ["Position updated. \[owner, collateral_type, collateral_adjustment,"%string; "debit_adjustment\]"%string]); (Variant "ConfiscateCollateralAndDebit"%string [(Field None 0%N (Some "T::AccountId"%string) []); (Field None 41%N (Some "CurrencyId"%string) []); (Field None 6%N (Some "Balance"%string) []); (Field None 6%N (Some "Balance"%string) [])] 1%N ["Confiscate CDP's collateral assets and eliminate its debit. \[owner,"%string; "collateral_type, confiscated_collateral_amount,"%string; "deduct_debit_amount\]"%string]); (Variant "TransferLoan"%string [(Field None 0%N (Some "T::AccountId"%string) []); (Field None 0%N (Some "T::AccountId"%string) []); (Field None 41%N (Some "CurrencyId"%string) [])] 2%N ["Transfer loan. \[from, to, currency_id\]"%string])]) ["
			The [event](https://docs.substrate.io/v3/runtime/events-and-errors) emitted
			by this pallet.
			"%string]).
Definition md_t141 : ty := (Ty ["module_honzon"%string; "module"%string; "Event"%string] [("T"%string,None)] (TVariant [(Variant "Authorization"%string [(Field None 0%N (Some "T::AccountId"%string) []); (Field None 0%N (Some "T::AccountId"%string) []); (Field None 41%N (Some "CurrencyId"%string) [])] 0%N ["Authorize someone to operate the loan of specific collateral."%string; "\[authorizer, authorizee, collateral_type\]"%string]); (Variant "UnAuthorization"%string [(Field None 0%N (Some "T::AccountId"%string) []); (Field None 0%N (Some "T::AccountId"%string) []); (Field None 41%N (Some "CurrencyId"%string) [])] 1%N ["Cancel the authorization of specific collateral for someone."%string; "\[authorizer, authorizee, collateral_type\]"%string]); (Variant "UnAuthorizationAll"%string [(Field None 0%N (Some "T::AccountId"%string) [])] 2%N ["Cancel all authorization. \[authorizer\]"%string])]) ["
			The [event](https://docs.substrate.io/v3/runtime/events-and-errors) emitted
			by this pallet.
			"%string]).
Definition md_t142 : ty := (Ty ["module_cdp_treasury"%string; "module"%string; "Event"%string] [("T"%string,None)] (TVariant [(Variant "ExpectedCollateralAuctionSizeUpdated"%string [(Field None 41%N (Some "CurrencyId"%string) []); (Field None 6%N (Some "Balance"%string) [])] 0%N ["The expected amount size for per lot collateral auction of specific"%string; "collateral type updated. \[collateral_type, new_size\]"%string])]) ["
			The [event](https://docs.substrate.io/v3/runtime/events-and-errors) emitted
			by this pallet.
			"%string]).
Definition md_t143 : ty := (Ty ["module_cdp_engine"%string; "module"%string; "Event"%string] [("T"%string,None)] (TVariant [(Variant "LiquidateUnsafeCDP"%string [(Field None 41%N (Some "CurrencyId"%string) []); (Field None 0%N (Some "T::AccountId"%string) []); (Field None 6%N (Some "Balance"%string) []); (Field None 6%N (Some "Balance"%string) []); (Field None 144%N (Some "LiquidationStrategy"%string) [])] 0%N ["Liquidate the unsafe CDP. \[collateral_type, owner,"%string; "collateral_amount, bad_debt_value, liquidation_strategy\]"%string]); (Variant "SettleCDPInDebit"%string [(Field None 41%N (Some "CurrencyId"%string) []); (Field None 0%N (Some "T::AccountId"%string) [])] 1%N ["Settle the CDP has debit. [collateral_type, owner]"%string]); (Variant "CloseCDPInDebitByDEX"%string [(Field None 41%N (Some "CurrencyId"%string) []); (Field None 0%N (Some "T::AccountId"%string) []); (Field None 6%N (Some "Balance"%string) []); (Field None 6%N (Some "Balance"%string) []); (Field None 6%N (Some "Balance"%string) [])] 2%N ["Directly close CDP has debit by handle debit with DEX."%string; "\[collateral_type, owner, sold_collateral_amount,"%string; "refund_collateral_amount, debit_value\]"%string]); (Variant "InterestRatePerSecUpdated"%string [(Field None 41%N (Some "CurrencyId"%string) []); (Field None 145%N (Some "Option<Rate>"%string) [])] 3%N ["The interest rate per sec for specific collateral type updated."%string; "\[collateral_type, new_interest_rate_per_sec\]"%string]); (Variant "LiquidationRatioUpdated"%string [(Field None 41%N (Some "CurrencyId"%string) []); (Field None 145%N (Some "Option<Ratio>"%string) [])] 4%N ["The liquidation fee for specific collateral type updated."%string; "\[collateral_type, new_liquidation_ratio\]"%string]); (Variant "LiquidationPenaltyUpdated"%string [(Field None 41%N (Some "CurrencyId"%string) []); (Field None 145%N (Some "Option<Rate>"%string) [])] 5%N ["The liquidation penalty rate for specific collateral type updated."%string; "\[collateral_type, new_liquidation_panelty\]"%string]); (Variant "RequiredCollateralRatioUpdated"%string [(Field None 41%N (Some "CurrencyId"%string) []); (Field None 145%N (Some "Option<Ratio>"%string) [])] 6%N ["The required collateral penalty rate for specific collateral type"%string; "updated. \[collateral_type, new_required_collateral_ratio\]"%string]); (Variant "MaximumTotalDebitValueUpdated"%string [(Field None 41%N (Some "CurrencyId"%string) []); (Field None 6%N (Some "Balance"%string) [])] 7%N ["The hard cap of total debit value for specific collateral type"%string; "updated. \[collateral_type, new_total_debit_value\]"%string]); (Variant "GlobalInterestRatePerSecUpdated"%string [(Field None 131%N (Some "Rate"%string) [])] 8%N ["The global interest rate per sec for all types of collateral"%string; "updated. \[new_global_interest_rate_per_sec\]"%string])]) ["
			The [event](https://docs.substrate.io/v3/runtime/events-and-errors) emitted
			by this pallet.
			"%string]).
Definition md_t144 : ty := (Ty ["module_cdp_engine"%string; "LiquidationStrategy"%string] [] (TVariant [(Variant "Auction"%string [(Field (Some "auction_count"%string) 4%N (Some "u32"%string) [])] 0%N []); (Variant "Exchange"%string [] 1%N [])]) []).
Definition md_t145 : ty := (Ty ["Option"%string] [("T"%string,(Some 131%N))] (TVariant [(Variant "None"%string [] 0%N []); (Variant "Some"%string [(Field None 131%N None [])] 1%N [])]) []).
Definition md_t146 : ty := (Ty ["module_emergency_shutdown"%string; "module"%string; "Event"%string] [("T"%string,None)] (TVariant [(Variant "Shutdown"%string [(Field None 4%N (Some "T::BlockNumber"%string) [])] 0%N ["Emergency shutdown occurs. \[block_number\]"%string]); (Variant "OpenRefund"%string [(Field None 4%N (Some "T::BlockNumber"%string) [])] 1%N ["The final redemption opened. \[block_number\]"%string]); (Variant "Refund"%string [(Field None 0%N (Some "T::AccountId"%string) []); (Field None 6%N (Some "Balance"%string) []); (Field None 147%N (Some "Vec<(CurrencyId, Balance)>"%string) [])] 2%N ["Refund info. \[caller, stable_coin_amount, refund_list\]"%string])]) ["
			The [event](https://docs.substrate.io/v3/runtime/events-and-errors) emitted
			by this pallet.
			"%string]).
Definition md_t147 : ty := (Ty [] [] (TSequence 148%N) []).
Definition md_t148 : ty := (Ty [] [] (TTuple [41%N; 6%N]) []).
Definition md_t149 : ty := (Ty ["module_homa_lite"%string; "module"%string; "Event"%string] [("T"%string,None)] (TVariant [(Variant "Minted"%string [(Field None 0%N (Some "T::AccountId"%string) []); (Field None 6%N (Some "Balance"%string) []); (Field None 6%N (Some "Balance"%string) [])] 0%N ["The user has Staked some currencies to mint Liquid Currency."%string; "\[user, amount_staked, amount_minted\]"%string]); (Variant "TotalStakingCurrencySet"%string [(Field None 6%N (Some "Balance"%string) [])] 1%N ["The total amount of the staking currency on the relaychain has been"%string; "set.\[total_staking_currency\]"%string]); (Variant "StakingCurrencyMintCapUpdated"%string [(Field None 6%N (Some "Balance"%string) [])] 2%N ["The mint cap for Staking currency is updated.\[new_cap\]"%string]); (Variant "XcmDestWeightSet"%string [(Field None 8%N (Some "Weight"%string) [])] 3%N ["A new weight for XCM transfers has been set.\[new_weight\]"%string]); (Variant "RedeemRequestCancelled"%string [(Field None 0%N (Some "T::AccountId"%string) []); (Field None 6%N (Some "Balance"%string) [])] 4%N ["The redeem request has been cancelled, and funds un-reserved."%string; "\[who, liquid_amount_unreserved\]"%string]); (Variant "RedeemRequested"%string [(Field None 0%N (Some "T::AccountId"%string) []); (Field None 6%N (Some "Balance"%string) []); (Field None 150%N (Some "Permill"%string) []); (Field None 6%N (Some "Balance"%string) [])] 5%N ["A new Redeem request has been registered."%string; "\[who, liquid_amount, extra_fee, withdraw_fee_paid\]"%string]); (Variant "Redeemed"%string [(Field None 0%N (Some "T::AccountId"%string) []); (Field None 6%N (Some "Balance"%string) []); (Field None 6%N (Some "Balance"%string) [])] 6%N ["The user has redeemed some Liquid currency back to Staking currency."%string; "\[user, staking_amount_redeemed, liquid_amount_deducted\]"%string]); (Variant "ScheduledUnbondAdded"%string [(Field None 6%N (Some "Balance"%string) []); (Field None 4%N (Some "RelayChainBlockNumberOf<T>"%string) [])] 7%N ["A new Unbond request added to the schedule."%string; "\[staking_amount, relaychain_blocknumber\]"%string]); (Variant "ScheduledUnbondReplaced"%string [] 8%N ["The ScheduledUnbond has been replaced."%string]); (Variant "ScheduledUnbondWithdrew"%string [(Field None 6%N (Some "Balance"%string) [])] 9%N ["The scheduled Unbond has been withdrew from the RelayChain."%string; "\[staking_amount_added\]"%string]); (Variant "StakingInterestRatePerUpdateSet"%string [(Field None 150%N (Some "Permill"%string) [])] 10%N ["Interest rate for TotalStakingCurrency is set"%string]); (Variant "AvailableStakingBalanceSet"%string [(Field None 6%N (Some "Balance"%string) [])] 11%N ["The amount of the staking currency available to be redeemed is set."%string; "\[total_available_staking_balance\]"%string])]) ["
			The [event](https://docs.substrate.io/v3/runtime/events-and-errors) emitted
			by this pallet.
			"%string]).
Definition md_t150 : ty := (Ty ["sp_arithmetic"%string; "per_things"%string; "Permill"%string] [] (TComposite [(Field None 4%N (Some "u32"%string) [])]) []).
Definition md_t151 : ty := (Ty ["module_incentives"%string; "module"%string; "Event"%string] [("T"%string,None)] (TVariant [(Variant "DepositDexShare"%string [(Field None 0%N (Some "T::AccountId"%string) []); (Field None 41%N (Some "CurrencyId"%string) []); (Field None 6%N (Some "Balance"%string) [])] 0%N ["Deposit DEX share. \[who, dex_share_type, deposit_amount\]"%string]); (Variant "WithdrawDexShare"%string [(Field None 0%N (Some "T::AccountId"%string) []); (Field None 41%N (Some "CurrencyId"%string) []); (Field None 6%N (Some "Balance"%string) [])] 1%N ["Withdraw DEX share. \[who, dex_share_type, withdraw_amount\]"%string]); (Variant "ClaimRewards"%string [(Field None 0%N (Some "T::AccountId"%string) []); (Field None 152%N (Some "PoolId"%string) []); (Field None 41%N (Some "CurrencyId"%string) []); (Field None 6%N (Some "Balance"%string) []); (Field None 6%N (Some "Balance"%string) [])] 2%N ["Claim rewards. \[who, pool_id, reward_currency_id, actual_amount, deduction_amount\]"%string]); (Variant "IncentiveRewardAmountUpdated"%string [(Field None 152%N (Some "PoolId"%string) []); (Field None 41%N (Some "CurrencyId"%string) []); (Field None 6%N (Some "Balance"%string) [])] 3%N ["Incentive reward amount updated. \[pool_id, reward_currency_id,"%string; "reward_amount_per_period\]"%string]); (Variant "SavingRewardRateUpdated"%string [(Field None 152%N (Some "PoolId"%string) []); (Field None 131%N (Some "Rate"%string) [])] 4%N ["Saving reward rate updated. \[pool_id, reward_rate_per_period\]"%string]); (Variant "ClaimRewardDeductionRateUpdated"%string [(Field None 152%N (Some "PoolId"%string) []); (Field None 131%N (Some "Rate"%string) [])] 5%N ["Payout deduction rate updated. \[pool_id, deduction_rate\]"%string])]) ["
			The [event](https://docs.substrate.io/v3/runtime/events-and-errors) emitted
			by this pallet.
			"%string]).
Definition md_t152 : ty := (Ty ["module_incentives"%string; "PoolId"%string] [] (TVariant [(Variant "Loans"%string [(Field None 41%N (Some "CurrencyId"%string) [])] 0%N []); (Variant "Dex"%string [(Field None 41%N (Some "CurrencyId"%string) [])] 1%N [])]) []).
Definition md_t153 : ty := (Ty ["module_nft"%string; "module"%string; "Event"%string] [("T"%string,None)] (TVariant [(Variant "CreatedClass"%string [(Field None 0%N (Some "T::AccountId"%string) []); (Field None 4%N (Some "ClassIdOf<T>"%string) [])] 0%N ["Created NFT class. \[owner, class_id\]"%string]); (Variant "MintedToken"%string [(Field None 0%N (Some "T::AccountId"%string) []); (Field None 0%N (Some "T::AccountId"%string) []); (Field None 4%N (Some "ClassIdOf<T>"%string) []); (Field None 4%N (Some "u32"%string) [])] 1%N ["Minted NFT token. \[from, to, class_id, quantity\]"%string]); (Variant "TransferredToken"%string [(Field None 0%N (Some "T::AccountId"%string) []); (Field None 0%N (Some "T::AccountId"%string) []); (Field None 4%N (Some "ClassIdOf<T>"%string) []); (Field None 8%N (Some "TokenIdOf<T>"%string) [])] 2%N ["Transferred NFT token. \[from, to, class_id, token_id\]"%string]); (Variant "BurnedToken"%string [(Field None 0%N (Some "T::AccountId"%string) []); (Field None 4%N (Some "ClassIdOf<T>"%string) []); (Field None 8%N (Some "TokenIdOf<T>"%string) [])] 3%N ["Burned NFT token. \[owner, class_id, token_id\]"%string]); (Variant "BurnedTokenWithRemark"%string [(Field None 0%N (Some "T::AccountId"%string) []); (Field None 4%N (Some "ClassIdOf<T>"%string) []); (Field None 8%N (Some "TokenIdOf<T>"%string) []); (Field None 9%N (Some "T::Hash"%string) [])] 4%N ["Burned NFT token with remark. \[owner, class_id, token_id, remark_hash\]"%string]); (Variant "DestroyedClass"%string [(Field None 0%N (Some "T::AccountId"%string) []); (Field None 4%N (Some "ClassIdOf<T>"%string) [])] 5%N ["Destroyed NFT class. \[owner, class_id\]"%string])]) ["
			The [event](https://docs.substrate.io/v3/runtime/events-and-errors) emitted
			by this pallet.
			"%string]).
Definition md_t154 : ty := (Ty ["module_asset_registry"%string; "module"%string; "Event"%string] [("T"%string,None)] (TVariant [(Variant "ForeignAssetRegistered"%string [(Field None 35%N (Some "ForeignAssetId"%string) []); (Field None 64%N (Some "MultiLocation"%string) []); (Field None 155%N (Some "AssetMetadata<BalanceOf<T>>"%string) [])] 0%N ["The foreign asset registered. \[ForeignAssetId, AssetMetadata\]"%string]); (Variant "ForeignAssetUpdated"%string [(Field None 64%N (Some "MultiLocation"%string) []); (Field None 155%N (Some "AssetMetadata<BalanceOf<T>>"%string) [])] 1%N ["The foreign asset updated. \[AssetMetadata\]"%string])]) ["
			The [event](https://docs.substrate.io/v3/runtime/events-and-errors) emitted
			by this pallet.
			"%string]).
Definition md_t155 : ty := (Ty ["module_asset_registry"%string; "module"%string; "AssetMetadata"%string] [("Balance"%string,(Some 6%N))] (TComposite [(Field (Some "name"%string) 10%N (Some "Vec<u8>"%string) []); (Field (Some "symbol"%string) 10%N (Some "Vec<u8>"%string) []); (Field (Some "decimals"%string) 2%N (Some "u8"%string) []); (Field (Some "minimal_balance"%string) 6%N (Some "Balance"%string) [])]) []).
Definition md_t156 : ty := (Ty ["module_evm"%string; "module"%string; "Event"%string] [("T"%string,None)] (TVariant [(Variant "Created"%string [(Field None 44%N (Some "EvmAddress"%string) []); (Field None 44%N (Some "EvmAddress"%string) []); (Field None 157%N (Some "Vec<Log>"%string) [])] 0%N ["A contract has been created at given \[from, address, logs\]."%string]); (Variant "CreatedFailed"%string [(Field None 44%N (Some "EvmAddress"%string) []); (Field None 44%N (Some "EvmAddress"%string) []); (Field None 160%N (Some "ExitReason"%string) []); (Field None 157%N (Some "Vec<Log>"%string) [])] 1%N ["A contract was attempted to be created, but the execution failed."%string; "\[from, contract, exit_reason, logs\]"%string]); (Variant "Executed"%string [(Field None 44%N (Some "EvmAddress"%string) []); (Field None 44%N (Some "EvmAddress"%string) []); (Field None 157%N (Some "Vec<Log>"%string) [])] 2%N ["A contract has been executed successfully with states applied. \[from, contract, logs\]"%string]); (Variant "ExecutedFailed"%string [(Field None 44%N (Some "EvmAddress"%string) []); (Field None 44%N (Some "EvmAddress"%string) []); (Field None 160%N (Some "ExitReason"%string) []); (Field None 10%N (Some "Vec<u8>"%string) []); (Field None 157%N (Some "Vec<Log>"%string) [])] 3%N ["A contract has been executed with errors. States are reverted with"%string; "only gas fees applied. \[from, contract, exit_reason, output, logs\]"%string]); (Variant "TransferredMaintainer"%string [(Field None 44%N (Some "EvmAddress"%string) []); (Field None 44%N (Some "EvmAddress"%string) [])] 4%N ["Transferred maintainer. \[contract, address\]"%string]); (Variant "ContractDevelopmentEnabled"%string [(Field None 0%N (Some "T::AccountId"%string) [])] 5%N ["Enabled contract development. \[who\]"%string]); (Variant "ContractDevelopmentDisabled"%string [(Field None 0%N (Some "T::AccountId"%string) [])] 6%N ["Disabled contract development. \[who\]"%string]); (Variant "ContractDeployed"%string [(Field None 44%N (Some "EvmAddress"%string) [])] 7%N ["Deployed contract. \[contract\]"%string]); (Variant "ContractSetCode"%string [(Field None 44%N (Some "EvmAddress"%string) [])] 8%N ["Set contract code. \[contract\]"%string]); (Variant "ContractSelfdestructed"%string [(Field None 44%N (Some "EvmAddress"%string) [])] 9%N ["Selfdestructed contract code. \[contract\]"%string])]) ["EVM events"%string]).
Definition md_t157 : ty := (Ty [] [] (TSequence 158%N) []).
Definition md_t158 : ty := (Ty ["ethereum"%string; "log"%string; "Log"%string] [] (TComposite [(Field (Some "address"%string) 44%N (Some "H160"%string) []); (Field (Some "topics"%string) 159%N (Some "Vec<H256>"%string) []); (Field (Some "data"%string) 10%N (Some "Bytes"%string) [])]) []).
Definition md_t159 : ty := (Ty [] [] (TSequence 9%N) []).
Definition md_t160 : ty := (Ty ["evm_core"%string; "error"%string; "ExitReason"%string] [] (TVariant [(Variant "Succeed"%string [(Field None 161%N (Some "ExitSucceed"%string) [])] 0%N []); (Variant "Error"%string [(Field None 162%N (Some "ExitError"%string) [])] 1%N []); (Variant "Revert"%string [(Field None 165%N (Some "ExitRevert"%string) [])] 2%N []); (Variant "Fatal"%string [(Field None 166%N (Some "ExitFatal"%string) [])] 3%N [])]) []).
Definition md_t161 : ty := (Ty ["evm_core"%string; "error"%string; "ExitSucceed"%string] [] (TVariant [(Variant "Stopped"%string [] 0%N []); (Variant "Returned"%string [] 1%N []); (Variant "Suicided"%string [] 2%N [])]) []).
Definition md_t162 : ty := (Ty ["evm_core"%string; "error"%string; "ExitError"%string] [] (TVariant [(Variant "StackUnderflow"%string [] 0%N []); (Variant "StackOverflow"%string [] 1%N []); (Variant "InvalidJump"%string [] 2%N []); (Variant "InvalidRange"%string [] 3%N []); (Variant "DesignatedInvalid"%string [] 4%N []); (Variant "CallTooDeep"%string [] 5%N []); (Variant "CreateCollision"%string [] 6%N []); (Variant "CreateContractLimit"%string [] 7%N []); (Variant "OutOfOffset"%string [] 8%N []); (Variant "OutOfGas"%string [] 9%N []); (Variant "OutOfFund"%string [] 10%N []); (Variant "PCUnderflow"%string [] 11%N []); (Variant "CreateEmpty"%string [] 12%N []); (Variant "Other"%string [(Field None 163%N (Some "Cow<'static, str>"%string) [])] 13%N [])]) []).
Definition md_t163 : ty := (Ty ["Cow"%string] [("T"%string,(Some 164%N))] (TComposite [(Field None 164%N None [])]) []).
Definition md_t164 : ty := (Ty [] [] (TPrimitive PrStr) []).
Definition md_t165 : ty := (Ty ["evm_core"%string; "error"%string; "ExitRevert"%string] [] (TVariant [(Variant "Reverted"%string [] 0%N [])]) []).
Definition md_t166 : ty := (Ty ["evm_core"%string; "error"%string; "ExitFatal"%string] [] (TVariant [(Variant "NotSupported"%string [] 0%N []); (Variant "UnhandledInterrupt"%string [] 1%N []); (Variant "CallErrorAsFatal"%string [(Field None 162%N (Some "ExitError"%string) [])] 2%N []); (Variant "Other"%string [(Field None 163%N (Some "Cow<'static, str>"%string) [])] 3%N [])]) []).
Definition md_t167 : ty := (Ty ["module_evm_accounts"%string; "module"%string; "Event"%string] [("T"%string,None)] (TVariant [(Variant "ClaimAccount"%string [(Field None 0%N (Some "T::AccountId"%string) []); (Field None 44%N (Some "EvmAddress"%string) [])] 0%N ["Mapping between Substrate accounts and EVM accounts"%string; "claim account. \[account_id, evm_address\]"%string])]) ["
			The [event](https://docs.substrate.io/v3/runtime/events-and-errors) emitted
			by this pallet.
			"%string]).
Definition md_t168 : ty := (Ty ["pallet_sudo"%string; "pallet"%string; "Event"%string] [("T"%string,None)] (TVariant [(Variant "Sudid"%string [(Field (Some "sudo_result"%string) 28%N (Some "DispatchResult"%string) [])] 0%N ["A sudo just took place. \[result\]"%string]); (Variant "KeyChanged"%string [(Field (Some "new_sudoer"%string) 0%N (Some "T::AccountId"%string) [])] 1%N ["The \[sudoer\] just switched identity; the old key is supplied."%string]); (Variant "SudoAsDone"%string [(Field (Some "sudo_result"%string) 28%N (Some "DispatchResult"%string) [])] 2%N ["A sudo just took place. \[result\]"%string])]) ["
			The [event](https://docs.substrate.io/v3/runtime/events-and-errors) emitted
			by this pallet.
			"%string]).
Definition md_t169 : ty := (Ty ["frame_system"%string; "Phase"%string] [] (TVariant [(Variant "ApplyExtrinsic"%string [(Field None 4%N (Some "u32"%string) [])] 0%N []); (Variant "Finalization"%string [] 1%N []); (Variant "Initialization"%string [] 2%N [])]) []).
Definition md_t170 : ty := (Ty [] [] (TSequence 26%N) []).
Definition md_t171 : ty := (Ty ["frame_system"%string; "LastRuntimeUpgradeInfo"%string] [] (TComposite [(Field (Some "spec_version"%string) 67%N (Some "codec::Compact<u32>"%string) []); (Field (Some "spec_name"%string) 164%N (Some "sp_runtime::RuntimeString"%string) [])]) []).
Definition md_t172 : ty := (Ty ["frame_system"%string; "pallet"%string; "Call"%string] [("T"%string,None)] (TVariant [(Variant "fill_block"%string [(Field (Some "ratio"%string) 173%N (Some "Perbill"%string) [])] 0%N ["A dispatch that will fill the block weight up to the given ratio."%string]); (Variant "remark"%string [(Field (Some "remark"%string) 10%N (Some "Vec<u8>"%string) [])] 1%N ["Make some on-chain remark."%string; ""%string; "# <weight>"%string; "- `O(1)`"%string; "# </weight>"%string]); (Variant "set_heap_pages"%string [(Field (Some "pages"%string) 8%N (Some "u64"%string) [])] 2%N ["Set the number of pages in the WebAssembly environment's heap."%string]); (Variant "set_code"%string [(Field (Some "code"%string) 10%N (Some "Vec<u8>"%string) [])] 3%N ["Set the new runtime code."%string; ""%string; "# <weight>"%string; "- `O(C + S)` where `C` length of `code` and `S` complexity of `can_set_code`"%string; "- 1 call to `can_set_code`: `O(S)` (calls `sp_io::misc::runtime_version` which is"%string; "  expensive)."%string; "- 1 storage write (codec `O(C)`)."%string; "- 1 digest item."%string; "- 1 event."%string; "The weight of this function is dependent on the runtime, but generally this is very"%string; "expensive. We will treat this as a full block."%string; "# </weight>"%string]); (Variant "set_code_without_checks"%string [(Field (Some "code"%string) 10%N (Some "Vec<u8>"%string) [])] 4%N ["Set the new runtime code without doing any checks of the given `code`."%string; ""%string; "# <weight>"%string; "- `O(C)` where `C` length of `code`"%string; "- 1 storage write (codec `O(C)`)."%string; "- 1 digest item."%string; "- 1 event."%string; "The weight of this function is dependent on the runtime. We will treat this as a full"%string; "block. # </weight>"%string]); (Variant "set_storage"%string [(Field (Some "items"%string) 174%N (Some "Vec<KeyValue>"%string) [])] 5%N ["Set some items of storage."%string]); (Variant "kill_storage"%string [(Field (Some "keys"%string) 176%N (Some "Vec<Key>"%string) [])] 6%N ["Kill some items from storage."%string]); (Variant "kill_prefix"%string [(Field (Some "prefix"%string) 10%N (Some "Key"%string) []); (Field (Some "subkeys"%string) 4%N (Some "u32"%string) [])] 7%N ["Kill all storage items with a key that starts with the given prefix."%string; ""%string; "**NOTE:** We rely on the Root origin to provide us the number of subkeys under"%string; "the prefix we are removing to accurately calculate the weight of this function."%string]); (Variant "remark_with_event"%string [(Field (Some "remark"%string) 10%N (Some "Vec<u8>"%string) [])] 8%N ["Make some on-chain remark and emit event."%string; ""%string; "# <weight>"%string; "- `O(b)` where b is the length of the remark."%string; "- 1 event."%string; "# </weight>"%string])]) ["Contains one variant per dispatchable that can be called by an extrinsic."%string]).
Definition md_t173 : ty := (Ty ["sp_arithmetic"%string; "per_things"%string; "Perbill"%string] [] (TComposite [(Field None 4%N (Some "u32"%string) [])]) []).
Definition md_t174 : ty := (Ty [] [] (TSequence 175%N) []).
Definition md_t175 : ty := (Ty [] [] (TTuple [10%N; 10%N]) []).
Definition md_t176 : ty := (Ty [] [] (TSequence 10%N) []).
Definition md_t177 : ty := (Ty ["frame_system"%string; "limits"%string; "BlockWeights"%string] [] (TComposite [(Field (Some "base_block"%string) 8%N (Some "Weight"%string) []); (Field (Some "max_block"%string) 8%N (Some "Weight"%string) []); (Field (Some "per_class"%string) 178%N (Some "PerDispatchClass<WeightsPerClass>"%string) [])]) []).
Definition md_t178 : ty := (Ty ["frame_support"%string; "weights"%string; "PerDispatchClass"%string] [("T"%string,(Some 179%N))] (TComposite [(Field (Some "normal"%string) 179%N (Some "T"%string) []); (Field (Some "operational"%string) 179%N (Some "T"%string) []); (Field (Some "mandatory"%string) 179%N (Some "T"%string) [])]) []).
Definition md_t179 : ty := (Ty ["frame_system"%string; "limits"%string; "WeightsPerClass"%string] [] (TComposite [(Field (Some "base_extrinsic"%string) 8%N (Some "Weight"%string) []); (Field (Some "max_extrinsic"%string) 180%N (Some "Option<Weight>"%string) []); (Field (Some "max_total"%string) 180%N (Some "Option<Weight>"%string) []); (Field (Some "reserved"%string) 180%N (Some "Option<Weight>"%string) [])]) []).
Definition md_t180 : ty := (Ty ["Option"%string] [("T"%string,(Some 8%N))] (TVariant [(Variant "None"%string [] 0%N []); (Variant "Some"%string [(Field None 8%N None [])] 1%N [])]) []).
Definition md_t181 : ty := (Ty ["frame_system"%string; "limits"%string; "BlockLength"%string] [] (TComposite [(Field (Some "max"%string) 182%N (Some "PerDispatchClass<u32>"%string) [])]) []).
Definition md_t182 : ty := (Ty ["frame_support"%string; "weights"%string; "PerDispatchClass"%string] [("T"%string,(Some 4%N))] (TComposite [(Field (Some "normal"%string) 4%N (Some "T"%string) []); (Field (Some "operational"%string) 4%N (Some "T"%string) []); (Field (Some "mandatory"%string) 4%N (Some "T"%string) [])]) []).
Definition md_t183 : ty := (Ty ["frame_support"%string; "weights"%string; "RuntimeDbWeight"%string] [] (TComposite [(Field (Some "read"%string) 8%N (Some "Weight"%string) []); (Field (Some "write"%string) 8%N (Some "Weight"%string) [])]) []).
Definition md_t184 : ty := (Ty ["sp_version"%string; "RuntimeVersion"%string] [] (TComposite [(Field (Some "spec_name"%string) 164%N (Some "RuntimeString"%string) []); (Field (Some "impl_name"%string) 164%N (Some "RuntimeString"%string) []); (Field (Some "authoring_version"%string) 4%N (Some "u32"%string) []); (Field (Some "spec_version"%string) 4%N (Some "u32"%string) []); (Field (Some "impl_version"%string) 4%N (Some "u32"%string) []); (Field (Some "apis"%string) 185%N (Some "ApisVec"%string) []); (Field (Some "transaction_version"%string) 4%N (Some "u32"%string) [])]) []).
Definition md_t185 : ty := (Ty ["Cow"%string] [("T"%string,(Some 186%N))] (TComposite [(Field None 186%N None [])]) []).
Definition md_t186 : ty := (Ty [] [] (TSequence 187%N) []).
Definition md_t187 : ty := (Ty [] [] (TTuple [81%N; 4%N]) []).
Definition md_t188 : ty := (Ty ["frame_system"%string; "pallet"%string; "Error"%string] [("T"%string,None)] (TVariant [(Variant "InvalidSpecName"%string [] 0%N ["The name of specification does not match between the current runtime"%string; "and the new runtime."%string]); (Variant "SpecVersionNeedsToIncrease"%string [] 1%N ["The specification version is not allowed to decrease between the current runtime"%string; "and the new runtime."%string]); (Variant "FailedToExtractRuntimeVersion"%string [] 2%N ["Failed to extract the runtime version from the new runtime."%string; ""%string; "Either calling `Core_version` or decoding `RuntimeVersion` failed."%string]); (Variant "NonDefaultComposite"%string [] 3%N ["Suicide called when the account has non-default composite data."%string]); (Variant "NonZeroRefCount"%string [] 4%N ["There is a non-zero reference count preventing the account from being purged."%string]); (Variant "CallFiltered"%string [] 5%N ["The origin filter prevent the call to be dispatched."%string])]) ["Error for the System pallet"%string]).
Definition md_t189 : ty := (Ty ["pallet_timestamp"%string; "pallet"%string; "Call"%string] [("T"%string,None)] (TVariant [(Variant "set"%string [(Field (Some "now"%string) 69%N (Some "T::Moment"%string) [])] 0%N ["Set the current time."%string; ""%string; "This call should be invoked exactly once per block. It will panic at the finalization"%string; "phase, if this call hasn't been invoked by that time."%string; ""%string; "The timestamp should be greater than the previous one by the amount specified by"%string; "`MinimumPeriod`."%string; ""%string; "The dispatch origin for this call must be `Inherent`."%string; ""%string; "# <weight>"%string; "- `O(1)` (Note that implementations of `OnTimestampSet` must also be `O(1)`)"%string; "- 1 storage read and 1 storage mutation (codec `O(1)`). (because of `DidUpdate::take` in"%string; "  `on_finalize`)"%string; "- 1 event handler `on_timestamp_set`. Must be `O(1)`."%string; "# </weight>"%string])]) ["Contains one variant per dispatchable that can be called by an extrinsic."%string]).
Definition md_t190 : ty := (Ty [] [] (TSequence 191%N) []).
Definition md_t191 : ty := (Ty ["Option"%string] [("T"%string,(Some 192%N))] (TVariant [(Variant "None"%string [] 0%N []); (Variant "Some"%string [(Field None 192%N None [])] 1%N [])]) []).
Definition md_t192 : ty := (Ty ["pallet_scheduler"%string; "ScheduledV2"%string] [("Call"%string,(Some 193%N)); ("BlockNumber"%string,(Some 4%N)); ("PalletsOrigin"%string,(Some 105%N)); ("AccountId"%string,(Some 0%N))] (TComposite [(Field (Some "maybe_id"%string) 27%N (Some "Option<Vec<u8>>"%string) []); (Field (Some "priority"%string) 2%N (Some "schedule::Priority"%string) []); (Field (Some "call"%string) 193%N (Some "Call"%string) []); (Field (Some "maybe_periodic"%string) 195%N (Some "Option<schedule::Period<BlockNumber>>"%string) []); (Field (Some "origin"%string) 105%N (Some "PalletsOrigin"%string) [])]) []).
Definition md_t193 : ty := (Ty ["acala_runtime"%string; "Call"%string] [] (TVariant [(Variant "System"%string [(Field None 172%N (Some "self::sp_api_hidden_includes_construct_runtime::hidden_include::dispatch
::CallableCallFor<System, Runtime>"%string) [])] 0%N []); (Variant "Timestamp"%string [(Field None 189%N (Some "self::sp_api_hidden_includes_construct_runtime::hidden_include::dispatch
::CallableCallFor<Timestamp, Runtime>"%string) [])] 1%N []); (Variant "Scheduler"%string [(Field None 194%N (Some "self::sp_api_hidden_includes_construct_runtime::hidden_include::dispatch
::CallableCallFor<Scheduler, Runtime>"%string) [])] 2%N []); (Variant "Utility"%string [(Field None 196%N (Some "self::sp_api_hidden_includes_construct_runtime::hidden_include::dispatch
::CallableCallFor<Utility, Runtime>"%string) [])] 3%N []); (Variant "Multisig"%string [(Field None 198%N (Some "self::sp_api_hidden_includes_construct_runtime::hidden_include::dispatch
::CallableCallFor<Multisig, Runtime>"%string) [])] 4%N []); (Variant "Proxy"%string [(Field None 201%N (Some "self::sp_api_hidden_includes_construct_runtime::hidden_include::dispatch
::CallableCallFor<Proxy, Runtime>"%string) [])] 5%N []); (Variant "TransactionPause"%string [(Field None 203%N (Some "self::sp_api_hidden_includes_construct_runtime::hidden_include::dispatch
::CallableCallFor<TransactionPause, Runtime>"%string) [])] 6%N []); (Variant "IdleScheduler"%string [(Field None 204%N (Some "self::sp_api_hidden_includes_construct_runtime::hidden_include::dispatch
::CallableCallFor<IdleScheduler, Runtime>"%string) [])] 7%N []); (Variant "Balances"%string [(Field None 208%N (Some "self::sp_api_hidden_includes_construct_runtime::hidden_include::dispatch
::CallableCallFor<Balances, Runtime>"%string) [])] 10%N []); (Variant "Currencies"%string [(Field None 210%N (Some "self::sp_api_hidden_includes_construct_runtime::hidden_include::dispatch
::CallableCallFor<Currencies, Runtime>"%string) [])] 12%N []); (Variant "Vesting"%string [(Field None 211%N (Some "self::sp_api_hidden_includes_construct_runtime::hidden_include::dispatch
::CallableCallFor<Vesting, Runtime>"%string) [])] 13%N []); (Variant "TransactionPayment"%string [(Field None 213%N (Some "self::sp_api_hidden_includes_construct_runtime::hidden_include::dispatch
::CallableCallFor<TransactionPayment, Runtime>"%string) [])] 14%N []); (Variant "Treasury"%string [(Field None 215%N (Some "self::sp_api_hidden_includes_construct_runtime::hidden_include::dispatch
::CallableCallFor<Treasury, Runtime>"%string) [])] 20%N []); (Variant "Bounties"%string [(Field None 216%N (Some "self::sp_api_hidden_includes_construct_runtime::hidden_include::dispatch
::CallableCallFor<Bounties, Runtime>"%string) [])] 21%N []); (Variant "Tips"%string [(Field None 217%N (Some "self::sp_api_hidden_includes_construct_runtime::hidden_include::dispatch
::CallableCallFor<Tips, Runtime>"%string) [])] 22%N []); (Variant "ParachainSystem"%string [(Field None 218%N (Some "self::sp_api_hidden_includes_construct_runtime::hidden_include::dispatch
::CallableCallFor<ParachainSystem, Runtime>"%string) [])] 30%N []); (Variant "CollatorSelection"%string [(Field None 230%N (Some "self::sp_api_hidden_includes_construct_runtime::hidden_include::dispatch
::CallableCallFor<CollatorSelection, Runtime>"%string) [])] 41%N []); (Variant "Session"%string [(Field None 231%N (Some "self::sp_api_hidden_includes_construct_runtime::hidden_include::dispatch
::CallableCallFor<Session, Runtime>"%string) [])] 42%N []); (Variant "SessionManager"%string [(Field None 235%N (Some "self::sp_api_hidden_includes_construct_runtime::hidden_include::dispatch
::CallableCallFor<SessionManager, Runtime>"%string) [])] 45%N []); (Variant "PolkadotXcm"%string [(Field None 236%N (Some "self::sp_api_hidden_includes_construct_runtime::hidden_include::dispatch
::CallableCallFor<PolkadotXcm, Runtime>"%string) [])] 51%N []); (Variant "DmpQueue"%string [(Field None 262%N (Some "self::sp_api_hidden_includes_construct_runtime::hidden_include::dispatch
::CallableCallFor<DmpQueue, Runtime>"%string) [])] 53%N []); (Variant "XTokens"%string [(Field None 263%N (Some "self::sp_api_hidden_includes_construct_runtime::hidden_include::dispatch
::CallableCallFor<XTokens, Runtime>"%string) [])] 54%N []); (Variant "OrmlXcm"%string [(Field None 265%N (Some "self::sp_api_hidden_includes_construct_runtime::hidden_include::dispatch
::CallableCallFor<OrmlXcm, Runtime>"%string) [])] 56%N []); (Variant "Authority"%string [(Field None 266%N (Some "self::sp_api_hidden_includes_construct_runtime::hidden_include::dispatch
::CallableCallFor<Authority, Runtime>"%string) [])] 60%N []); (Variant "GeneralCouncil"%string [(Field None 269%N (Some "self::sp_api_hidden_includes_construct_runtime::hidden_include::dispatch
::CallableCallFor<GeneralCouncil, Runtime>"%string) [])] 61%N []); (Variant "GeneralCouncilMembership"%string [(Field None 270%N (Some "self::sp_api_hidden_includes_construct_runtime::hidden_include::dispatch
::CallableCallFor<GeneralCouncilMembership, Runtime>"%string) [])] 62%N []); (Variant "FinancialCouncil"%string [(Field None 271%N (Some "self::sp_api_hidden_includes_construct_runtime::hidden_include::dispatch
::CallableCallFor<FinancialCouncil, Runtime>"%string) [])] 63%N []); (Variant "FinancialCouncilMembership"%string [(Field None 272%N (Some "self::sp_api_hidden_includes_construct_runtime::hidden_include::dispatch
::CallableCallFor<FinancialCouncilMembership, Runtime>"%string) [])] 64%N []); (Variant "HomaCouncil"%string [(Field None 273%N (Some "self::sp_api_hidden_includes_construct_runtime::hidden_include::dispatch
::CallableCallFor<HomaCouncil, Runtime>"%string) [])] 65%N []); (Variant "HomaCouncilMembership"%string [(Field None 274%N (Some "self::sp_api_hidden_includes_construct_runtime::hidden_include::dispatch
::CallableCallFor<HomaCouncilMembership, Runtime>"%string) [])] 66%N []); (Variant "TechnicalCommittee"%string [(Field None 275%N (Some "self::sp_api_hidden_includes_construct_runtime::hidden_include::dispatch
::CallableCallFor<TechnicalCommittee, Runtime>"%string) [])] 67%N []); (Variant "TechnicalCommitteeMembership"%string [(Field None 276%N (Some "self::sp_api_hidden_includes_construct_runtime::hidden_include::dispatch
::CallableCallFor<TechnicalCommitteeMembership, Runtime>"%string) [])] 68%N []); (Variant "Democracy"%string [(Field None 277%N (Some "self::sp_api_hidden_includes_construct_runtime::hidden_include::dispatch
::CallableCallFor<Democracy, Runtime>"%string) [])] 69%N []); (Variant "AcalaOracle"%string [(Field None 281%N (Some "self::sp_api_hidden_includes_construct_runtime::hidden_include::dispatch
::CallableCallFor<AcalaOracle, Runtime>"%string) [])] 70%N []); (Variant "OperatorMembershipAcala"%string [(Field None 282%N (Some "self::sp_api_hidden_includes_construct_runtime::hidden_include::dispatch
::CallableCallFor<OperatorMembershipAcala, Runtime>"%string) [])] 71%N []); (Variant "Auction"%string [(Field None 283%N (Some "self::sp_api_hidden_includes_construct_runtime::hidden_include::dispatch
::CallableCallFor<Auction, Runtime>"%string) [])] 80%N []); (Variant "Rewards"%string [(Field None 284%N (Some "self::sp_api_hidden_includes_construct_runtime::hidden_include::dispatch
::CallableCallFor<Rewards, Runtime>"%string) [])] 81%N []); (Variant "Prices"%string [(Field None 285%N (Some "self::sp_api_hidden_includes_construct_runtime::hidden_include::dispatch
::CallableCallFor<Prices, Runtime>"%string) [])] 90%N []); (Variant "Dex"%string [(Field None 286%N (Some "self::sp_api_hidden_includes_construct_runtime::hidden_include::dispatch
::CallableCallFor<Dex, Runtime>"%string) [])] 91%N []); (Variant "AuctionManager"%string [(Field None 287%N (Some "self::sp_api_hidden_includes_construct_runtime::hidden_include::dispatch
::CallableCallFor<AuctionManager, Runtime>"%string) [])] 100%N []); (Variant "Loans"%string [(Field None 288%N (Some "self::sp_api_hidden_includes_construct_runtime::hidden_include::dispatch
::CallableCallFor<Loans, Runtime>"%string) [])] 101%N []); (Variant "Honzon"%string [(Field None 289%N (Some "self::sp_api_hidden_includes_construct_runtime::hidden_include::dispatch
::CallableCallFor<Honzon, Runtime>"%string) [])] 102%N []); (Variant "CdpTreasury"%string [(Field None 290%N (Some "self::sp_api_hidden_includes_construct_runtime::hidden_include::dispatch
::CallableCallFor<CdpTreasury, Runtime>"%string) [])] 103%N []); (Variant "CdpEngine"%string [(Field None 291%N (Some "self::sp_api_hidden_includes_construct_runtime::hidden_include::dispatch
::CallableCallFor<CdpEngine, Runtime>"%string) [])] 104%N []); (Variant "EmergencyShutdown"%string [(Field None 294%N (Some "self::sp_api_hidden_includes_construct_runtime::hidden_include::dispatch
::CallableCallFor<EmergencyShutdown, Runtime>"%string) [])] 105%N []); (Variant "HomaLite"%string [(Field None 295%N (Some "self::sp_api_hidden_includes_construct_runtime::hidden_include::dispatch
::CallableCallFor<HomaLite, Runtime>"%string) [])] 115%N []); (Variant "Incentives"%string [(Field None 298%N (Some "self::sp_api_hidden_includes_construct_runtime::hidden_include::dispatch
::CallableCallFor<Incentives, Runtime>"%string) [])] 120%N []); (Variant "NFT"%string [(Field None 303%N (Some "self::sp_api_hidden_includes_construct_runtime::hidden_include::dispatch
::CallableCallFor<NFT, Runtime>"%string) [])] 121%N []); (Variant "AssetRegistry"%string [(Field None 308%N (Some "self::sp_api_hidden_includes_construct_runtime::hidden_include::dispatch
::CallableCallFor<AssetRegistry, Runtime>"%string) [])] 122%N []); (Variant "EVM"%string [(Field None 309%N (Some "self::sp_api_hidden_includes_construct_runtime::hidden_include::dispatch
::CallableCallFor<EVM, Runtime>"%string) [])] 130%N []); (Variant "EvmAccounts"%string [(Field None 311%N (Some "self::sp_api_hidden_includes_construct_runtime::hidden_include::dispatch
::CallableCallFor<EvmAccounts, Runtime>"%string) [])] 132%N []); (Variant "Sudo"%string [(Field None 314%N (Some "self::sp_api_hidden_includes_construct_runtime::hidden_include::dispatch
::CallableCallFor<Sudo, Runtime>"%string) [])] 255%N [])]) []).
Definition md_t194 : ty := (Ty ["pallet_scheduler"%string; "pallet"%string; "Call"%string] [("T"%string,None)] (TVariant [(Variant "schedule"%string [(Field (Some "when"%string) 4%N (Some "T::BlockNumber"%string) []); (Field (Some "maybe_periodic"%string) 195%N (Some "Option<schedule::Period<T::BlockNumber>>"%string) []); (Field (Some "priority"%string) 2%N (Some "schedule::Priority"%string) []); (Field (Some "call"%string) 193%N (Some "Box<<T as Config>::Call>"%string) [])] 0%N ["Anonymously schedule a task."%string]); (Variant "cancel"%string [(Field (Some "when"%string) 4%N (Some "T::BlockNumber"%string) []); (Field (Some "index"%string) 4%N (Some "u32"%string) [])] 1%N ["Cancel an anonymously scheduled task."%string]); (Variant "schedule_named"%string [(Field (Some "id"%string) 10%N (Some "Vec<u8>"%string) []); (Field (Some "when"%string) 4%N (Some "T::BlockNumber"%string) []); (Field (Some "maybe_periodic"%string) 195%N (Some "Option<schedule::Period<T::BlockNumber>>"%string) []); (Field (Some "priority"%string) 2%N (Some "schedule::Priority"%string) []); (Field (Some "call"%string) 193%N (Some "Box<<T as Config>::Call>"%string) [])] 2%N ["Schedule a named task."%string]); (Variant "cancel_named"%string [(Field (Some "id"%string) 10%N (Some "Vec<u8>"%string) [])] 3%N ["Cancel a named scheduled task."%string]); (Variant "schedule_after"%string [(Field (Some "after"%string) 4%N (Some "T::BlockNumber"%string) []); (Field (Some "maybe_periodic"%string) 195%N (Some "Option<schedule::Period<T::BlockNumber>>"%string) []); (Field (Some "priority"%string) 2%N (Some "schedule::Priority"%string) []); (Field (Some "call"%string) 193%N (Some "Box<<T as Config>::Call>"%string) [])] 4%N ["Anonymously schedule a task after a delay."%string; ""%string; "# <weight>"%string; "Same as [`schedule`]."%string; "# </weight>"%string]); (Variant "schedule_named_after"%string [(Field (Some "id"%string) 10%N (Some "Vec<u8>"%string) []); (Field (Some "after"%string) 4%N (Some "T::BlockNumber"%string) []); (Field (Some "maybe_periodic"%string) 195%N (Some "Option<schedule::Period<T::BlockNumber>>"%string) []); (Field (Some "priority"%string) 2%N (Some "schedule::Priority"%string) []); (Field (Some "call"%string) 193%N (Some "Box<<T as Config>::Call>"%string) [])] 5%N ["Schedule a named task after a delay."%string; ""%string; "# <weight>"%string; "Same as [`schedule_named`](Self::schedule_named)."%string; "# </weight>"%string])]) ["Contains one variant per dispatchable that can be called by an extrinsic."%string]).
Definition md_t195 : ty := (Ty ["Option"%string] [("T"%string,(Some 26%N))] (TVariant [(Variant "None"%string [] 0%N []); (Variant "Some"%string [(Field None 26%N None [])] 1%N [])]) []).
Definition md_t196 : ty := (Ty ["pallet_utility"%string; "pallet"%string; "Call"%string] [("T"%string,None)] (TVariant [(Variant "batch"%string [(Field (Some "calls"%string) 197%N (Some "Vec<<T as Config>::Call>"%string) [])] 0%N ["Send a batch of dispatch calls."%string; ""%string; "May be called from any origin."%string; ""%string; "- `calls`: The calls to be dispatched from the same origin. The number of call must not"%string; "  exceed the constant: `batched_calls_limit` (available in constant metadata)."%string; ""%string; "If origin is root then call are dispatch without checking origin filter. (This includes"%string; "bypassing `frame_system::Config::BaseCallFilter`)."%string; ""%string; "# <weight>"%string; "- Complexity: O(C) where C is the number of calls to be batched."%string; "# </weight>"%string; ""%string; "This will return `Ok` in all circumstances. To determine the success of the batch, an"%string; "event is deposited. If a call failed and the batch was interrupted, then the"%string; "`BatchInterrupted` event is deposited, along with the number of successful calls made"%string; "and the error of the failed call. If all were successful, then the `BatchCompleted`"%string; "event is deposited."%string]); (Variant "as_derivative"%string [(Field (Some "index"%string) 35%N (Some "u16"%string) []); (Field (Some "call"%string) 193%N (Some "Box<<T as Config>::Call>"%string) [])] 1%N ["Send a call through an indexed pseudonym of the sender."%string; ""%string; "Filter from origin are passed along. The call will be dispatched with an origin which"%string; "use the same filter as the origin of this call."%string; ""%string; "NOTE: If you need to ensure that any account-based filtering is not honored (i.e."%string; "because you expect `proxy` to have been used prior in the call stack and you do not want"%string; "the call restrictions to apply to any sub-accounts), then use `as_multi_threshold_1`"%string; "in the Multisig pallet instead."%string; ""%string; "NOTE: Prior to version *12, this was called `as_limited_sub`."%string; ""%string; "The dispatch origin for this call must be _Signed_."%string]); (Variant "batch_all"%string [(Field (Some "calls"%string) 197%N (Some "Vec<<T as Config>::Call>"%string) [])] 2%N ["Send a batch of dispatch calls and atomically execute them."%string; "The whole transaction will rollback and fail if any of the calls failed."%string; ""%string; "May be called from any origin."%string; ""%string; "- `calls`: The calls to be dispatched from the same origin. The number of call must not"%string; "  exceed the constant: `batched_calls_limit` (available in constant metadata)."%string; ""%string; "If origin is root then call are dispatch without checking origin filter. (This includes"%string; "bypassing `frame_system::Config::BaseCallFilter`)."%string; ""%string; "# <weight>"%string; "- Complexity: O(C) where C is the number of calls to be batched."%string; "# </weight>"%string]); (Variant "dispatch_as"%string [(Field (Some "as_origin"%string) 105%N (Some "Box<T::PalletsOrigin>"%string) []); (Field (Some "call"%string) 193%N (Some "Box<<T as Config>::Call>"%string) [])] 3%N ["Dispatches a function call with a provided origin."%string; ""%string; "The dispatch origin for this call must be _Root_."%string; ""%string; "# <weight>"%string; "- O(1)."%string; "- Limited storage reads."%string; "- One DB write (event)."%string; "- Weight of derivative `call` execution + T::WeightInfo::dispatch_as()."%string; "# </weight>"%string])]) ["Contains one variant per dispatchable that can be called by an extrinsic."%string]).
Definition md_t197 : ty := (Ty [] [] (TSequence 193%N) []).
Definition md_t198 : ty := (Ty ["pallet_multisig"%string; "pallet"%string; "Call"%string] [("T"%string,None)] (TVariant [(Variant "as_multi_threshold_1"%string [(Field (Some "other_signatories"%string) 56%N (Some "Vec<T::AccountId>"%string) []); (Field (Some "call"%string) 193%N (Some "Box<<T as Config>::Call>"%string) [])] 0%N ["Immediately dispatch a multi-signature call using a single approval from the caller."%string; ""%string; "The dispatch origin for this call must be _Signed_."%string; ""%string; "- `other_signatories`: The accounts (other than the sender) who are part of the"%string; "multi-signature, but do not participate in the approval process."%string; "- `call`: The call to be executed."%string; ""%string; "Result is equivalent to the dispatched result."%string; ""%string; "# <weight>"%string; "O(Z + C) where Z is the length of the call and C its execution weight."%string; "-------------------------------"%string; "- DB Weight: None"%string; "- Plus Call Weight"%string; "# </weight>"%string]); (Variant "as_multi"%string [(Field (Some "threshold"%string) 35%N (Some "u16"%string) []); (Field (Some "other_signatories"%string) 56%N (Some "Vec<T::AccountId>"%string) []); (Field (Some "maybe_timepoint"%string) 199%N (Some "Option<Timepoint<T::BlockNumber>>"%string) []); (Field (Some "call"%string) 200%N (Some "OpaqueCall<T>"%string) []); (Field (Some "store_call"%string) 118%N (Some "bool"%string) []); (Field (Some "max_weight"%string) 8%N (Some "Weight"%string) [])] 1%N ["Register approval for a dispatch to be made from a deterministic composite account if"%string; "approved by a total of `threshold - 1` of `other_signatories`."%string; ""%string; "If there are enough, then dispatch the call."%string; ""%string; "Payment: `DepositBase` will be reserved if this is the first approval, plus"%string; "`threshold` times `DepositFactor`. It is returned once this dispatch happens or"%string; "is cancelled."%string; ""%string; "The dispatch origin for this call must be _Signed_."%string; ""%string; "- `threshold`: The total number of approvals for this dispatch before it is executed."%string; "- `other_signatories`: The accounts (other than the sender) who can approve this"%string; "dispatch. May not be empty."%string; "- `maybe_timepoint`: If this is the first approval, then this must be `None`. If it is"%string; "not the first approval, then it must be `Some`, with the timepoint (block number and"%string; "transaction index) of the first approval transaction."%string; "- `call`: The call to be executed."%string; ""%string; "NOTE: Unless this is the final approval, you will generally want to use"%string; "`approve_as_multi` instead, since it only requires a hash of the call."%string; ""%string; "Result is equivalent to the dispatched result if `threshold` is exactly `1`. Otherwise"%string; "on success, result is `Ok` and the result from the interior call, if it was executed,"%string; "may be found in the deposited `MultisigExecuted` event."%string; ""%string; "# <weight>"%string; "- `O(S + Z + Call)`."%string; "- Up to one balance-reserve or unreserve operation."%string; "- One passthrough operation, one insert, both `O(S)` where `S` is the number of"%string; "  signatories. `S` is capped by `MaxSignatories`, with weight being proportional."%string; "- One call encode & hash, both of complexity `O(Z)` where `Z` is tx-len."%string; "- One encode & hash, both of complexity `O(S)`."%string; "- Up to one binary search and insert (`O(logS + S)`)."%string; "- I/O: 1 read `O(S)`, up to 1 mutate `O(S)`. Up to one remove."%string; "- One event."%string; "- The weight of the `call`."%string; "- Storage: inserts one item, value size bounded by `MaxSignatories`, with a deposit"%string; "  taken for its lifetime of `DepositBase + threshold * DepositFactor`."%string; "-------------------------------"%string; "- DB Weight:"%string; "    - Reads: Multisig Storage, [Caller Account], Calls (if `store_call`)"%string; "    - Writes: Multisig Storage, [Caller Account], Calls (if `store_call`)"%string; "- Plus Call Weight"%string; "# </weight>"%string]); (Variant "approve_as_multi"%string [(Field (Some "threshold"%string) 35%N (Some "u16"%string) []); (Field (Some "other_signatories"%string) 56%N (Some "Vec<T::AccountId>"%string) []); (Field (Some "maybe_timepoint"%string) 199%N (Some "Option<Timepoint<T::BlockNumber>>"%string) []); (Field (Some "call_hash"%string) 1%N (Some "[u8; 32]"%string) []); (Field (Some "max_weight"%string) 8%N (Some "Weight"%string) [])] 2%N ["Register approval for a dispatch to be made from a deterministic composite account if"%string; "approved by a total of `threshold - 1` of `other_signatories`."%string; ""%string; "Payment: `DepositBase` will be reserved if this is the first approval, plus"%string; "`threshold` times `DepositFactor`. It is returned once this dispatch happens or"%string; "is cancelled."%string; ""%string; "The dispatch origin for this call must be _Signed_."%string; ""%string; "- `threshold`: The total number of approvals for this dispatch before it is executed."%string; "- `other_signatories`: The accounts (other than the sender) who can approve this"%string; "dispatch. May not be empty."%string; "- `maybe_timepoint`: If this is the first approval, then this must be `None`. If it is"%string; "not the first approval, then it must be `Some`, with the timepoint (block number and"%string; "transaction index) of the first approval transaction."%string; "- `call_hash`: The hash of the call to be executed."%string; ""%string; "NOTE: If this is the final approval, you will want to use `as_multi` instead."%string; ""%string; "# <weight>"%string; "- `O(S)`."%string; "- Up to one balance-reserve or unreserve operation."%string; "- One passthrough operation, one insert, both `O(S)` where `S` is the number of"%string; "  signatories. `S` is capped by `MaxSignatories`, with weight being proportional."%string; "- One encode & hash, both of complexity `O(S)`."%string; "- Up to one binary search and insert (`O(logS + S)`)."%string; "- I/O: 1 read `O(S)`, up to 1 mutate `O(S)`. Up to one remove."%string; "- One event."%string; "- Storage: inserts one item, value size bounded by `MaxSignatories`, with a deposit"%string; "  taken for its lifetime of `DepositBase + threshold * DepositFactor`."%string; "----------------------------------"%string; "- DB Weight:"%string; "    - Read: Multisig Storage, [Caller Account]"%string; "    - Write: Multisig Storage, [Caller Account]"%string; "# </weight>"%string]); (Variant "cancel_as_multi"%string [(Field (Some "threshold"%string) 35%N (Some "u16"%string) []); (Field (Some "other_signatories"%string) 56%N (Some "Vec<T::AccountId>"%string) []); (Field (Some "timepoint"%string) 32%N (Some "Timepoint<T::BlockNumber>"%string) []); (Field (Some "call_hash"%string) 1%N (Some "[u8; 32]"%string) [])] 3%N ["Cancel a pre-existing, on-going multisig transaction. Any deposit reserved previously"%string; "for this operation will be unreserved on success."%string; ""%string; "The dispatch origin for this call must be _Signed_."%string; ""%string; "- `threshold`: The total number of approvals for this dispatch before it is executed."%string; "- `other_signatories`: The accounts (other than the sender) who can approve this"%string; "dispatch. May not be empty."%string; "- `timepoint`: The timepoint (block number and transaction index) of the first approval"%string; "transaction for this dispatch."%string; "- `call_hash`: The hash of the call to be executed."%string; ""%string; "# <weight>"%string; "- `O(S)`."%string; "- Up to one balance-reserve or unreserve operation."%string; "- One passthrough operation, one insert, both `O(S)` where `S` is the number of"%string; "  signatories. `S` is capped by `MaxSignatories`, with weight being proportional."%string; "- One encode & hash, both of complexity `O(S)`."%string; "- One event."%string; "- I/O: 1 read `O(S)`, one remove."%string; "- Storage: removes one item."%string; "----------------------------------"%string; "- DB Weight:"%string; "    - Read: Multisig Storage, [Caller Account], Refund Account, Calls"%string; "    - Write: Multisig Storage, [Caller Account], Refund Account, Calls"%string; "# </weight>"%string])]) ["Contains one variant per dispatchable that can be called by an extrinsic."%string]).
Definition md_t199 : ty := (Ty ["Option"%string] [("T"%string,(Some 32%N))] (TVariant [(Variant "None"%string [] 0%N []); (Variant "Some"%string [(Field None 32%N None [])] 1%N [])]) []).
Definition md_t200 : ty := (Ty ["frame_support"%string; "traits"%string; "misc"%string; "WrapperKeepOpaque"%string] [("T"%string,(Some 193%N))] (TComposite [(Field None 67%N None []); (Field None 193%N (Some "T"%string) [])]) []).
Definition md_t201 : ty := (Ty ["pallet_proxy"%string; "pallet"%string; "Call"%string] [("T"%string,None)] (TVariant [(Variant "proxy"%string [(Field (Some "real"%string) 0%N (Some "T::AccountId"%string) []); (Field (Some "force_proxy_type"%string) 202%N (Some "Option<T::ProxyType>"%string) []); (Field (Some "call"%string) 193%N (Some "Box<<T as Config>::Call>"%string) [])] 0%N ["Dispatch the given `call` from an account that the sender is authorised for through"%string; "`add_proxy`."%string; ""%string; "Removes any corresponding announcement(s)."%string; ""%string; "The dispatch origin for this call must be _Signed_."%string; ""%string; "Parameters:"%string; "- `real`: The account that the proxy will make a call on behalf of."%string; "- `force_proxy_type`: Specify the exact proxy type to be used and checked for this call."%string; "- `call`: The call to be made by the `real` account."%string; ""%string; "# <weight>"%string; "Weight is a function of the number of proxies the user has (P)."%string; "# </weight>"%string]); (Variant "add_proxy"%string [(Field (Some "delegate"%string) 0%N (Some "T::AccountId"%string) []); (Field (Some "proxy_type"%string) 34%N (Some "T::ProxyType"%string) []); (Field (Some "delay"%string) 4%N (Some "T::BlockNumber"%string) [])] 1%N ["Register a proxy account for the sender that is able to make calls on its behalf."%string; ""%string; "The dispatch origin for this call must be _Signed_."%string; ""%string; "Parameters:"%string; "- `proxy`: The account that the `caller` would like to make a proxy."%string; "- `proxy_type`: The permissions allowed for this proxy account."%string; "- `delay`: The announcement period required of the initial proxy. Will generally be"%string; "zero."%string; ""%string; "# <weight>"%string; "Weight is a function of the number of proxies the user has (P)."%string; "# </weight>"%string]); (Variant "remove_proxy"%string [(Field (Some "delegate"%string) 0%N (Some "T::AccountId"%string) []); (Field (Some "proxy_type"%string) 34%N (Some "T::ProxyType"%string) []); (Field (Some "delay"%string) 4%N (Some "T::BlockNumber"%string) [])] 2%N ["Unregister a proxy account for the sender."%string; ""%string; "The dispatch origin for this call must be _Signed_."%string; ""%string; "Parameters:"%string; "- `proxy`: The account that the `caller` would like to remove as a proxy."%string; "- `proxy_type`: The permissions currently enabled for the removed proxy account."%string; ""%string; "# <weight>"%string; "Weight is a function of the number of proxies the user has (P)."%string; "# </weight>"%string]); (Variant "remove_proxies"%string [] 3%N ["Unregister all proxy accounts for the sender."%string; ""%string; "The dispatch origin for this call must be _Signed_."%string; ""%string; "WARNING: This may be called on accounts created by `anonymous`, however if done, then"%string; "the unreserved fees will be inaccessible. **All access to this account will be lost.**"%string; ""%string; "# <weight>"%string; "Weight is a function of the number of proxies the user has (P)."%string; "# </weight>"%string]); (Variant "anonymous"%string [(Field (Some "proxy_type"%string) 34%N (Some "T::ProxyType"%string) []); (Field (Some "delay"%string) 4%N (Some "T::BlockNumber"%string) []); (Field (Some "index"%string) 35%N (Some "u16"%string) [])] 4%N ["Spawn a fresh new account that is guaranteed to be otherwise inaccessible, and"%string; "initialize it with a proxy of `proxy_type` for `origin` sender."%string; ""%string; "Requires a `Signed` origin."%string; ""%string; "- `proxy_type`: The type of the proxy that the sender will be registered as over the"%string; "new account. This will almost always be the most permissive `ProxyType` possible to"%string; "allow for maximum flexibility."%string; "- `index`: A disambiguation index, in case this is called multiple times in the same"%string; "transaction (e.g. with `utility::batch`). Unless you're using `batch` you probably just"%string; "want to use `0`."%string; "- `delay`: The announcement period required of the initial proxy. Will generally be"%string; "zero."%string; ""%string; "Fails with `Duplicate` if this has already been called in this transaction, from the"%string; "same sender, with the same parameters."%string; ""%string; "Fails if there are insufficient funds to pay for deposit."%string; ""%string; "# <weight>"%string; "Weight is a function of the number of proxies the user has (P)."%string; "# </weight>"%string; "TODO: Might be over counting 1 read"%string]); (Variant "kill_anonymous"%string [(Field (Some "spawner"%string) 0%N (Some "T::AccountId"%string) []); (Field (Some "proxy_type"%string) 34%N (Some "T::ProxyType"%string) []); (Field (Some "index"%string) 35%N (Some "u16"%string) []); (Field (Some "height"%string) 67%N (Some "T::BlockNumber"%string) []); (Field (Some "ext_index"%string) 67%N (Some "u32"%string) [])] 5%N ["Removes a previously spawned anonymous proxy."%string; ""%string; "WARNING: **All access to this account will be lost.** Any funds held in it will be"%string; "inaccessible."%string; ""%string; "Requires a `Signed` origin, and the sender account must have been created by a call to"%string; "`anonymous` with corresponding parameters."%string; ""%string; "- `spawner`: The account that originally called `anonymous` to create this account."%string; "- `index`: The disambiguation index originally passed to `anonymous`. Probably `0`."%string; "- `proxy_type`: The proxy type originally passed to `anonymous`."%string; "- `height`: The height of the chain when the call to `anonymous` was processed."%string; "- `ext_index`: The extrinsic index in which the call to `anonymous` was processed."%string; ""%string; "Fails with `NoPermission` in case the caller is not a previously created anonymous"%string; "account whose `anonymous` call has corresponding parameters."%string; ""%string; "# <weight>"%string; "Weight is a function of the number of proxies the user has (P)."%string; "# </weight>"%string]); (Variant "announce"%string [(Field (Some "real"%string) 0%N (Some "T::AccountId"%string) []); (Field (Some "call_hash"%string) 9%N (Some "CallHashOf<T>"%string) [])] 6%N ["Publish the hash of a proxy-call that will be made in the future."%string; ""%string; "This must be called some number of blocks before the corresponding `proxy` is attempted"%string; "if the delay associated with the proxy relationship is greater than zero."%string; ""%string; "No more than `MaxPending` announcements may be made at any one time."%string; ""%string; "This will take a deposit of `AnnouncementDepositFactor` as well as"%string; "`AnnouncementDepositBase` if there are no other pending announcements."%string; ""%string; "The dispatch origin for this call must be _Signed_ and a proxy of `real`."%string; ""%string; "Parameters:"%string; "- `real`: The account that the proxy will make a call on behalf of."%string; "- `call_hash`: The hash of the call to be made by the `real` account."%string; ""%string; "# <weight>"%string; "Weight is a function of:"%string; "- A: the number of announcements made."%string; "- P: the number of proxies the user has."%string; "# </weight>"%string]); (Variant "remove_announcement"%string [(Field (Some "real"%string) 0%N (Some "T::AccountId"%string) []); (Field (Some "call_hash"%string) 9%N (Some "CallHashOf<T>"%string) [])] 7%N ["Remove a given announcement."%string; ""%string; "May be called by a proxy account to remove a call they previously announced and return"%string; "the deposit."%string; ""%string; "The dispatch origin for this call must be _Signed_."%string; ""%string; "Parameters:"%string; "- `real`: The account that the proxy will make a call on behalf of."%string; "- `call_hash`: The hash of the call to be made by the `real` account."%string; ""%string; "# <weight>"%string; "Weight is a function of:"%string; "- A: the number of announcements made."%string; "- P: the number of proxies the user has."%string; "# </weight>"%string]); (Variant "reject_announcement"%string [(Field (Some "delegate"%string) 0%N (Some "T::AccountId"%string) []); (Field (Some "call_hash"%string) 9%N (Some "CallHashOf<T>"%string) [])] 8%N ["Remove the given announcement of a delegate."%string; ""%string; "May be called by a target (proxied) account to remove a call that one of their delegates"%string; "(`delegate`) has announced they want to execute. The deposit is returned."%string; ""%string; "The dispatch origin for this call must be _Signed_."%string; ""%string; "Parameters:"%string; "- `delegate`: The account that previously announced the call."%string; "- `call_hash`: The hash of the call to be made."%string; ""%string; "# <weight>"%string; "Weight is a function of:"%string; "- A: the number of announcements made."%string; "- P: the number of proxies the user has."%string; "# </weight>"%string]); (Variant "proxy_announced"%string [(Field (Some "delegate"%string) 0%N (Some "T::AccountId"%string) []); (Field (Some "real"%string) 0%N (Some "T::AccountId"%string) []); (Field (Some "force_proxy_type"%string) 202%N (Some "Option<T::ProxyType>"%string) []); (Field (Some "call"%string) 193%N (Some "Box<<T as Config>::Call>"%string) [])] 9%N ["Dispatch the given `call` from an account that the sender is authorized for through"%string; "`add_proxy`."%string; ""%string; "Removes any corresponding announcement(s)."%string; ""%string; "The dispatch origin for this call must be _Signed_."%string; ""%string; "Parameters:"%string; "- `real`: The account that the proxy will make a call on behalf of."%string; "- `force_proxy_type`: Specify the exact proxy type to be used and checked for this call."%string; "- `call`: The call to be made by the `real` account."%string; ""%string; "# <weight>"%string; "Weight is a function of:"%string; "- A: the number of announcements made."%string; "- P: the number of proxies the user has."%string; "# </weight>"%string])]) ["Contains one variant per dispatchable that can be called by an extrinsic."%string]).
Definition md_t202 : ty := (Ty ["Option"%string] [("T"%string,(Some 34%N))] (TVariant [(Variant "None"%string [] 0%N []); (Variant "Some"%string [(Field None 34%N None [])] 1%N [])]) []).
Definition md_t203 : ty := (Ty ["module_transaction_pause"%string; "module"%string; "Call"%string] [("T"%string,None)] (TVariant [(Variant "pause_transaction"%string [(Field (Some "pallet_name"%string) 10%N (Some "Vec<u8>"%string) []); (Field (Some "function_name"%string) 10%N (Some "Vec<u8>"%string) [])] 0%N []); (Variant "unpause_transaction"%string [(Field (Some "pallet_name"%string) 10%N (Some "Vec<u8>"%string) []); (Field (Some "function_name"%string) 10%N (Some "Vec<u8>"%string) [])] 1%N [])]) ["Contains one variant per dispatchable that can be called by an extrinsic."%string]).
Definition md_t204 : ty := (Ty ["module_idle_scheduler"%string; "module"%string; "Call"%string] [("T"%string,None)] (TVariant [(Variant "schedule_task"%string [(Field (Some "task"%string) 205%N (Some "T::Task"%string) [])] 0%N [])]) ["Contains one variant per dispatchable that can be called by an extrinsic."%string]).
Definition md_t205 : ty := (Ty ["acala_runtime"%string; "ScheduledTasks"%string] [] (TVariant [(Variant "EvmTask"%string [(Field None 206%N (Some "EvmTask<Runtime>"%string) [])] 0%N [])]) []).
Definition md_t206 : ty := (Ty ["module_evm"%string; "EvmTask"%string] [("T"%string,(Some 207%N))] (TVariant [(Variant "Schedule"%string [(Field (Some "from"%string) 44%N (Some "EvmAddress"%string) []); (Field (Some "target"%string) 44%N (Some "EvmAddress"%string) []); (Field (Some "input"%string) 10%N (Some "Vec<u8>"%string) []); (Field (Some "value"%string) 6%N (Some "BalanceOf<T>"%string) []); (Field (Some "gas_limit"%string) 8%N (Some "u64"%string) []); (Field (Some "storage_limit"%string) 4%N (Some "u32"%string) [])] 0%N []); (Variant "Remove"%string [(Field (Some "caller"%string) 44%N (Some "EvmAddress"%string) []); (Field (Some "contract"%string) 44%N (Some "EvmAddress"%string) []); (Field (Some "maintainer"%string) 44%N (Some "EvmAddress"%string) [])] 1%N [])]) []).
Definition md_t207 : ty := (Ty ["acala_runtime"%string; "Runtime"%string] [] (TComposite []) []).
Definition md_t208 : ty := (Ty ["pallet_balances"%string; "pallet"%string; "Call"%string] [("T"%string,None); ("I"%string,None)] (TVariant [(Variant "transfer"%string [(Field (Some "dest"%string) 209%N (Some "<T::Lookup as StaticLookup>::Source"%string) []); (Field (Some "value"%string) 50%N (Some "T::Balance"%string) [])] 0%N ["Transfer some liquid free balance to another account."%string; ""%string; "`transfer` will set the `FreeBalance` of the sender and receiver."%string; "It will decrease the total issuance of the system by the `TransferFee`."%string; "If the sender's account is below the existential deposit as a result"%string; "of the transfer, the account will be reaped."%string; ""%string; "The dispatch origin for this call must be `Signed` by the transactor."%string; ""%string; "# <weight>"%string; "- Dependent on arguments but not critical, given proper implementations for input config"%string; "  types. See related functions below."%string; "- It contains a limited number of reads and writes internally and no complex"%string; "  computation."%string; ""%string; "Related functions:"%string; ""%string; "  - `ensure_can_withdraw` is always called internally but has a bounded complexity."%string; "  - Transferring balances to accounts that did not exist before will cause"%string; "    `T::OnNewAccount::on_new_account` to be called."%string; "  - Removing enough funds from an account will trigger `T::DustRemoval::on_unbalanced`."%string; "  - `transfer_keep_alive` works the same way as `transfer`, but has an additional check"%string; "    that the transfer will not kill the origin account."%string; "---------------------------------"%string; "- Origin account is already in memory, so no DB operations for them."%string; "# </weight>"%string]); (Variant "set_balance"%string [(Field (Some "who"%string) 209%N (Some "<T::Lookup as StaticLookup>::Source"%string) []); (Field (Some "new_free"%string) 50%N (Some "T::Balance"%string) []); (Field (Some "new_reserved"%string) 50%N (Some "T::Balance"%string) [])] 1%N ["Set the balances of a given account."%string; ""%string; "This will alter `FreeBalance` and `ReservedBalance` in storage. it will"%string; "also decrease the total issuance of the system (`TotalIssuance`)."%string; "If the new free or reserved balance is below the existential deposit,"%string; "it will reset the account nonce (`frame_system::AccountNonce`)."%string; ""%string; "The dispatch origin for this call is `root`."%string]); (Variant "force_transfer"%string [(Field (Some "source"%string) 209%N (Some "<T::Lookup as StaticLookup>::Source"%string) []); (Field (Some "dest"%string) 209%N (Some "<T::Lookup as StaticLookup>::Source"%string) []); (Field (Some "value"%string) 50%N (Some "T::Balance"%string) [])] 2%N ["Exactly as `transfer`, except the origin must be root and the source account may be"%string; "specified."%string; "# <weight>"%string; "- Same as transfer, but additional read and write because the source account is not"%string; "  assumed to be in the overlay."%string; "# </weight>"%string]); (Variant "transfer_keep_alive"%string [(Field (Some "dest"%string) 209%N (Some "<T::Lookup as StaticLookup>::Source"%string) []); (Field (Some "value"%string) 50%N (Some "T::Balance"%string) [])] 3%N ["Same as the [`transfer`] call, but with a check that the transfer will not kill the"%string; "origin account."%string; ""%string; "99% of the time you want [`transfer`] instead."%string; ""%string; "[`transfer`]: struct.Pallet.html#method.transfer"%string]); (Variant "transfer_all"%string [(Field (Some "dest"%string) 209%N (Some "<T::Lookup as StaticLookup>::Source"%string) []); (Field (Some "keep_alive"%string) 118%N (Some "bool"%string) [])] 4%N ["Transfer the entire transferable balance from the caller account."%string; ""%string; "NOTE: This function only attempts to transfer _transferable_ balances. This means that"%string; "any locked, reserved, or existential deposits (when `keep_alive` is `true`), will not be"%string; "transferred by this function. To ensure that this function results in a killed account,"%string; "you might need to prepare the account by removing any reference counters, storage"%string; "deposits, etc..."%string; ""%string; "The dispatch origin of this call must be Signed."%string; ""%string; "- `dest`: The recipient of the transfer."%string; "- `keep_alive`: A boolean to determine if the `transfer_all` operation should send all"%string; "  of the funds the account has, causing the sender account to be killed (false), or"%string; "  transfer everything except at least the existential deposit, which will guarantee to"%string; "  keep the sender account alive (true). # <weight>"%string; "- O(1). Just like transfer, but reading the user's transferable balance first."%string; "  #</weight>"%string]); (Variant "force_unreserve"%string [(Field (Some "who"%string) 209%N (Some "<T::Lookup as StaticLookup>::Source"%string) []); (Field (Some "amount"%string) 6%N (Some "T::Balance"%string) [])] 5%N ["Unreserve some balance from a user by force."%string; ""%string; "Can only be called by ROOT."%string])]) ["Contains one variant per dispatchable that can be called by an extrinsic."%string]).
Definition md_t209 : ty := (Ty ["sp_runtime"%string; "multiaddress"%string; "MultiAddress"%string] [("AccountId"%string,(Some 0%N)); ("AccountIndex"%string,(Some 4%N))] (TVariant [(Variant "Id"%string [(Field None 0%N (Some "AccountId"%string) [])] 0%N []); (Variant "Index"%string [(Field None 67%N (Some "AccountIndex"%string) [])] 1%N []); (Variant "Raw"%string [(Field None 10%N (Some "Vec<u8>"%string) [])] 2%N []); (Variant "Address32"%string [(Field None 1%N (Some "[u8; 32]"%string) [])] 3%N []); (Variant "Address20"%string [(Field None 45%N (Some "[u8; 20]"%string) [])] 4%N [])]) []).
Definition md_t210 : ty := (Ty ["module_currencies"%string; "module"%string; "Call"%string] [("T"%string,None)] (TVariant [(Variant "transfer"%string [(Field (Some "dest"%string) 209%N (Some "<T::Lookup as StaticLookup>::Source"%string) []); (Field (Some "currency_id"%string) 41%N (Some "CurrencyIdOf<T>"%string) []); (Field (Some "amount"%string) 50%N (Some "BalanceOf<T>"%string) [])] 0%N ["Transfer some balance to another account under `currency_id`."%string; ""%string; "The dispatch origin for this call must be `Signed` by the"%string; "transactor."%string]); (Variant "transfer_native_currency"%string [(Field (Some "dest"%string) 209%N (Some "<T::Lookup as StaticLookup>::Source"%string) []); (Field (Some "amount"%string) 50%N (Some "BalanceOf<T>"%string) [])] 1%N ["Transfer some native currency to another account."%string; ""%string; "The dispatch origin for this call must be `Signed` by the"%string; "transactor."%string]); (Variant "update_balance"%string [(Field (Some "who"%string) 209%N (Some "<T::Lookup as StaticLookup>::Source"%string) []); (Field (Some "currency_id"%string) 41%N (Some "CurrencyIdOf<T>"%string) []); (Field (Some "amount"%string) 47%N (Some "AmountOf<T>"%string) [])] 2%N ["update amount of account `who` under `currency_id`."%string; ""%string; "The dispatch origin of this call must be _Root_."%string]); (Variant "sweep_dust"%string [(Field (Some "currency_id"%string) 41%N (Some "CurrencyIdOf<T>"%string) []); (Field (Some "accounts"%string) 56%N (Some "Vec<T::AccountId>"%string) [])] 3%N [])]) ["Contains one variant per dispatchable that can be called by an extrinsic."%string]).
Definition md_t211 : ty := (Ty ["orml_vesting"%string; "module"%string; "Call"%string] [("T"%string,None)] (TVariant [(Variant "claim"%string [] 0%N []); (Variant "vested_transfer"%string [(Field (Some "dest"%string) 209%N (Some "<T::Lookup as StaticLookup>::Source"%string) []); (Field (Some "schedule"%string) 49%N (Some "VestingScheduleOf<T>"%string) [])] 1%N []); (Variant "update_vesting_schedules"%string [(Field (Some "who"%string) 209%N (Some "<T::Lookup as StaticLookup>::Source"%string) []); (Field (Some "vesting_schedules"%string) 212%N (Some "Vec<VestingScheduleOf<T>>"%string) [])] 2%N []); (Variant "claim_for"%string [(Field (Some "dest"%string) 209%N (Some "<T::Lookup as StaticLookup>::Source"%string) [])] 3%N [])]) ["Contains one variant per dispatchable that can be called by an extrinsic."%string]).
Definition md_t212 : ty := (Ty [] [] (TSequence 49%N) []).
Definition md_t213 : ty := (Ty ["module_transaction_payment"%string; "module"%string; "Call"%string] [("T"%string,None)] (TVariant [(Variant "set_alternative_fee_swap_path"%string [(Field (Some "fee_swap_path"%string) 214%N (Some "Option<Vec<CurrencyId>>"%string) [])] 0%N ["Set fee swap path"%string])]) ["Contains one variant per dispatchable that can be called by an extrinsic."%string]).
Definition md_t214 : ty := (Ty ["Option"%string] [("T"%string,(Some 136%N))] (TVariant [(Variant "None"%string [] 0%N []); (Variant "Some"%string [(Field None 136%N None [])] 1%N [])]) []).
Definition md_t215 : ty := (Ty ["pallet_treasury"%string; "pallet"%string; "Call"%string] [("T"%string,None); ("I"%string,None)] (TVariant [(Variant "propose_spend"%string [(Field (Some "value"%string) 50%N (Some "BalanceOf<T, I>"%string) []); (Field (Some "beneficiary"%string) 209%N (Some "<T::Lookup as StaticLookup>::Source"%string) [])] 0%N ["Put forward a suggestion for spending. A deposit proportional to the value"%string; "is reserved and slashed if the proposal is rejected. It is returned once the"%string; "proposal is awarded."%string; ""%string; "# <weight>"%string; "- Complexity: O(1)"%string; "- DbReads: `ProposalCount`, `origin account`"%string; "- DbWrites: `ProposalCount`, `Proposals`, `origin account`"%string; "# </weight>"%string]); (Variant "reject_proposal"%string [(Field (Some "proposal_id"%string) 67%N (Some "ProposalIndex"%string) [])] 1%N ["Reject a proposed spend. The original deposit will be slashed."%string; ""%string; "May only be called from `T::RejectOrigin`."%string; ""%string; "# <weight>"%string; "- Complexity: O(1)"%string; "- DbReads: `Proposals`, `rejected proposer account`"%string; "- DbWrites: `Proposals`, `rejected proposer account`"%string; "# </weight>"%string]); (Variant "approve_proposal"%string [(Field (Some "proposal_id"%string) 67%N (Some "ProposalIndex"%string) [])] 2%N ["Approve a proposal. At a later time, the proposal will be allocated to the beneficiary"%string; "and the original deposit will be returned."%string; ""%string; "May only be called from `T::ApproveOrigin`."%string; ""%string; "# <weight>"%string; "- Complexity: O(1)."%string; "- DbReads: `Proposals`, `Approvals`"%string; "- DbWrite: `Approvals`"%string; "# </weight>"%string])]) ["Contains one variant per dispatchable that can be called by an extrinsic."%string]).
Definition md_t216 : ty := (Ty ["pallet_bounties"%string; "pallet"%string; "Call"%string] [("T"%string,None)] (TVariant [(Variant "propose_bounty"%string [(Field (Some "value"%string) 50%N (Some "BalanceOf<T>"%string) []); (Field (Some "description"%string) 10%N (Some "Vec<u8>"%string) [])] 0%N ["Propose a new bounty."%string; ""%string; "The dispatch origin for this call must be _Signed_."%string; ""%string; "Payment: `TipReportDepositBase` will be reserved from the origin account, as well as"%string; "`DataDepositPerByte` for each byte in `reason`. It will be unreserved upon approval,"%string; "or slashed when rejected."%string; ""%string; "- `curator`: The curator account whom will manage this bounty."%string; "- `fee`: The curator fee."%string; "- `value`: The total payment amount of this bounty, curator fee included."%string; "- `description`: The description of this bounty."%string]); (Variant "approve_bounty"%string [(Field (Some "bounty_id"%string) 67%N (Some "BountyIndex"%string) [])] 1%N ["Approve a bounty proposal. At a later time, the bounty will be funded and become active"%string; "and the original deposit will be returned."%string; ""%string; "May only be called from `T::ApproveOrigin`."%string; ""%string; "# <weight>"%string; "- O(1)."%string; "# </weight>"%string]); (Variant "propose_curator"%string [(Field (Some "bounty_id"%string) 67%N (Some "BountyIndex"%string) []); (Field (Some "curator"%string) 209%N (Some "<T::Lookup as StaticLookup>::Source"%string) []); (Field (Some "fee"%string) 50%N (Some "BalanceOf<T>"%string) [])] 2%N ["Assign a curator to a funded bounty."%string; ""%string; "May only be called from `T::ApproveOrigin`."%string; ""%string; "# <weight>"%string; "- O(1)."%string; "# </weight>"%string]); (Variant "unassign_curator"%string [(Field (Some "bounty_id"%string) 67%N (Some "BountyIndex"%string) [])] 3%N ["Unassign curator from a bounty."%string; ""%string; "This function can only be called by the `RejectOrigin` a signed origin."%string; ""%string; "If this function is called by the `RejectOrigin`, we assume that the curator is"%string; "malicious or inactive. As a result, we will slash the curator when possible."%string; ""%string; "If the origin is the curator, we take this as a sign they are unable to do their job and"%string; "they willingly give up. We could slash them, but for now we allow them to recover their"%string; "deposit and exit without issue. (We may want to change this if it is abused.)"%string; ""%string; "Finally, the origin can be anyone if and only if the curator is ""inactive"". This allows"%string; "anyone in the community to call out that a curator is not doing their due diligence, and"%string; "we should pick a new curator. In this case the curator should also be slashed."%string; ""%string; "# <weight>"%string; "- O(1)."%string; "# </weight>"%string]); (Variant "accept_curator"%string [(Field (Some "bounty_id"%string) 67%N (Some "BountyIndex"%string) [])] 4%N ["Accept the curator role for a bounty."%string; "A deposit will be reserved from curator and refund upon successful payout."%string; ""%string; "May only be called from the curator."%string; ""%string; "# <weight>"%string; "- O(1)."%string; "# </weight>"%string]); (Variant "award_bounty"%string [(Field (Some "bounty_id"%string) 67%N (Some "BountyIndex"%string) []); (Field (Some "beneficiary"%string) 209%N (Some "<T::Lookup as StaticLookup>::Source"%string) [])] 5%N ["Award bounty to a beneficiary account. The beneficiary will be able to claim the funds"%string; "after a delay."%string; ""%string; "The dispatch origin for this call must be the curator of this bounty."%string; ""%string; "- `bounty_id`: Bounty ID to award."%string; "- `beneficiary`: The beneficiary account whom will receive the payout."%string; ""%string; "# <weight>"%string; "- O(1)."%string; "# </weight>"%string]); (Variant "claim_bounty"%string [(Field (Some "bounty_id"%string) 67%N (Some "BountyIndex"%string) [])] 6%N ["Claim the payout from an awarded bounty after payout delay."%string; ""%string; "The dispatch origin for this call must be the beneficiary of this bounty."%string; ""%string; "- `bounty_id`: Bounty ID to claim."%string; ""%string; "# <weight>"%string; "- O(1)."%string; "# </weight>"%string]); (Variant "close_bounty"%string [(Field (Some "bounty_id"%string) 67%N (Some "BountyIndex"%string) [])] 7%N ["Cancel a proposed or active bounty. All the funds will be sent to treasury and"%string; "the curator deposit will be unreserved if possible."%string; ""%string; "Only `T::RejectOrigin` is able to cancel a bounty."%string; ""%string; "- `bounty_id`: Bounty ID to cancel."%string; ""%string; "# <weight>"%string; "- O(1)."%string; "# </weight>"%string]); (Variant "extend_bounty_expiry"%string [(Field (Some "bounty_id"%string) 67%N (Some "BountyIndex"%string) []); (Field (Some "remark"%string) 10%N (Some "Vec<u8>"%string) [])] 8%N ["Extend the expiry time of an active bounty."%string; ""%string; "The dispatch origin for this call must be the curator of this bounty."%string; ""%string; "- `bounty_id`: Bounty ID to extend."%string; "- `remark`: additional information."%string; ""%string; "# <weight>"%string; "- O(1)."%string; "# </weight>"%string])]) ["Contains one variant per dispatchable that can be called by an extrinsic."%string]).
Definition md_t217 : ty := (Ty ["pallet_tips"%string; "pallet"%string; "Call"%string] [("T"%string,None)] (TVariant [(Variant "report_awesome"%string [(Field (Some "reason"%string) 10%N (Some "Vec<u8>"%string) []); (Field (Some "who"%string) 0%N (Some "T::AccountId"%string) [])] 0%N ["Report something `reason` that deserves a tip and claim any eventual the finder's fee."%string; ""%string; "The dispatch origin for this call must be _Signed_."%string; ""%string; "Payment: `TipReportDepositBase` will be reserved from the origin account, as well as"%string; "`DataDepositPerByte` for each byte in `reason`."%string; ""%string; "- `reason`: The reason for, or the thing that deserves, the tip; generally this will be"%string; "  a UTF-8-encoded URL."%string; "- `who`: The account which should be credited for the tip."%string; ""%string; "Emits `NewTip` if successful."%string; ""%string; "# <weight>"%string; "- Complexity: `O(R)` where `R` length of `reason`."%string; "  - encoding and hashing of 'reason'"%string; "- DbReads: `Reasons`, `Tips`"%string; "- DbWrites: `Reasons`, `Tips`"%string; "# </weight>"%string]); (Variant "retract_tip"%string [(Field (Some "hash"%string) 9%N (Some "T::Hash"%string) [])] 1%N ["Retract a prior tip-report from `report_awesome`, and cancel the process of tipping."%string; ""%string; "If successful, the original deposit will be unreserved."%string; ""%string; "The dispatch origin for this call must be _Signed_ and the tip identified by `hash`"%string; "must have been reported by the signing account through `report_awesome` (and not"%string; "through `tip_new`)."%string; ""%string; "- `hash`: The identity of the open tip for which a tip value is declared. This is formed"%string; "  as the hash of the tuple of the original tip `reason` and the beneficiary account ID."%string; ""%string; "Emits `TipRetracted` if successful."%string; ""%string; "# <weight>"%string; "- Complexity: `O(1)`"%string; "  - Depends on the length of `T::Hash` which is fixed."%string; "- DbReads: `Tips`, `origin account`"%string; "- DbWrites: `Reasons`, `Tips`, `origin account`"%string; "# </weight>"%string]); (Variant "tip_new"%string [(Field (Some "reason"%string) 10%N (Some "Vec<u8>"%string) []); (Field (Some "who"%string) 0%N (Some "T::AccountId"%string) []); (Field (Some "tip_value"%string) 50%N (Some "BalanceOf<T>"%string) [])] 2%N ["Give a tip for something new; no finder's fee will be taken."%string; ""%string; "The dispatch origin for this call must be _Signed_ and the signing account must be a"%string; "member of the `Tippers` set."%string; ""%string; "- `reason`: The reason for, or the thing that deserves, the tip; generally this will be"%string; "  a UTF-8-encoded URL."%string; "- `who`: The account which should be credited for the tip."%string; "- `tip_value`: The amount of tip that the sender would like to give. The median tip"%string; "  value of active tippers will be given to the `who`."%string; ""%string; "Emits `NewTip` if successful."%string; ""%string; "# <weight>"%string; "- Complexity: `O(R + T)` where `R` length of `reason`, `T` is the number of tippers."%string; "  - `O(T)`: decoding `Tipper` vec of length `T`. `T` is charged as upper bound given by"%string; "    `ContainsLengthBound`. The actual cost depends on the implementation of"%string; "    `T::Tippers`."%string; "  - `O(R)`: hashing and encoding of reason of length `R`"%string; "- DbReads: `Tippers`, `Reasons`"%string; "- DbWrites: `Reasons`, `Tips`"%string; "# </weight>"%string]); (Variant "tip"%string [(Field (Some "hash"%string) 9%N (Some "T::Hash"%string) []); (Field (Some "tip_value"%string) 50%N (Some "BalanceOf<T>"%string) [])] 3%N ["Declare a tip value for an already-open tip."%string; ""%string; "The dispatch origin for this call must be _Signed_ and the signing account must be a"%string; "member of the `Tippers` set."%string; ""%string; "- `hash`: The identity of the open tip for which a tip value is declared. This is formed"%string; "  as the hash of the tuple of the hash of the original tip `reason` and the beneficiary"%string; "  account ID."%string; "- `tip_value`: The amount of tip that the sender would like to give. The median tip"%string; "  value of active tippers will be given to the `who`."%string; ""%string; "Emits `TipClosing` if the threshold of tippers has been reached and the countdown period"%string; "has started."%string; ""%string; "# <weight>"%string; "- Complexity: `O(T)` where `T` is the number of tippers. decoding `Tipper` vec of length"%string; "  `T`, insert tip and check closing, `T` is charged as upper bound given by"%string; "  `ContainsLengthBound`. The actual cost depends on the implementation of `T::Tippers`."%string; ""%string; "  Actually weight could be lower as it depends on how many tips are in `OpenTip` but it"%string; "  is weighted as if almost full i.e of length `T-1`."%string; "- DbReads: `Tippers`, `Tips`"%string; "- DbWrites: `Tips`"%string; "# </weight>"%string]); (Variant "close_tip"%string [(Field (Some "hash"%string) 9%N (Some "T::Hash"%string) [])] 4%N ["Close and payout a tip."%string; ""%string; "The dispatch origin for this call must be _Signed_."%string; ""%string; "The tip identified by `hash` must have finished its countdown period."%string; ""%string; "- `hash`: The identity of the open tip for which a tip value is declared. This is formed"%string; "  as the hash of the tuple of the original tip `reason` and the beneficiary account ID."%string; ""%string; "# <weight>"%string; "- Complexity: `O(T)` where `T` is the number of tippers. decoding `Tipper` vec of length"%string; "  `T`. `T` is charged as upper bound given by `ContainsLengthBound`. The actual cost"%string; "  depends on the implementation of `T::Tippers`."%string; "- DbReads: `Tips`, `Tippers`, `tip finder`"%string; "- DbWrites: `Reasons`, `Tips`, `Tippers`, `tip finder`"%string; "# </weight>"%string]); (Variant "slash_tip"%string [(Field (Some "hash"%string) 9%N (Some "T::Hash"%string) [])] 5%N ["Remove and slash an already-open tip."%string; ""%string; "May only be called from `T::RejectOrigin`."%string; ""%string; "As a result, the finder is slashed and the deposits are lost."%string; ""%string; "Emits `TipSlashed` if successful."%string; ""%string; "# <weight>"%string; "  `T` is charged as upper bound given by `ContainsLengthBound`."%string; "  The actual cost depends on the implementation of `T::Tippers`."%string; "# </weight>"%string])]) ["Contains one variant per dispatchable that can be called by an extrinsic."%string]).
Definition md_t218 : ty := (Ty ["cumulus_pallet_parachain_system"%string; "pallet"%string; "Call"%string] [("T"%string,None)] (TVariant [(Variant "set_validation_data"%string [(Field (Some "data"%string) 219%N (Some "ParachainInherentData"%string) [])] 0%N ["Set the current validation data."%string; ""%string; "This should be invoked exactly once per block. It will panic at the finalization"%string; "phase if the call was not invoked."%string; ""%string; "The dispatch origin for this call must be `Inherent`"%string; ""%string; "As a side effect, this function upgrades the current validation function"%string; "if the appropriate time has come."%string]); (Variant "sudo_send_upward_message"%string [(Field (Some "message"%string) 10%N (Some "UpwardMessage"%string) [])] 1%N []); (Variant "authorize_upgrade"%string [(Field (Some "code_hash"%string) 9%N (Some "T::Hash"%string) [])] 2%N []); (Variant "enact_authorized_upgrade"%string [(Field (Some "code"%string) 10%N (Some "Vec<u8>"%string) [])] 3%N [])]) ["Contains one variant per dispatchable that can be called by an extrinsic."%string]).
Definition md_t219 : ty := (Ty ["cumulus_primitives_parachain_inherent"%string; "ParachainInherentData"%string] [] (TComposite [(Field (Some "validation_data"%string) 220%N (Some "PersistedValidationData"%string) []); (Field (Some "relay_chain_state"%string) 222%N (Some "sp_trie::StorageProof"%string) []); (Field (Some "downward_messages"%string) 223%N (Some "Vec<InboundDownwardMessage>"%string) []); (Field (Some "horizontal_messages"%string) 225%N (Some "BTreeMap<ParaId, Vec<InboundHrmpMessage>>"%string) [])]) []).
Definition md_t220 : ty := (Ty ["polkadot_primitives"%string; "v1"%string; "PersistedValidationData"%string] [("H"%string,(Some 9%N)); ("N"%string,(Some 4%N))] (TComposite [(Field (Some "parent_head"%string) 221%N (Some "HeadData"%string) []); (Field (Some "relay_parent_number"%string) 4%N (Some "N"%string) []); (Field (Some "relay_parent_storage_root"%string) 9%N (Some "H"%string) []); (Field (Some "max_pov_size"%string) 4%N (Some "u32"%string) [])]) []).
Definition md_t221 : ty := (Ty ["polkadot_parachain"%string; "primitives"%string; "HeadData"%string] [] (TComposite [(Field None 10%N (Some "Vec<u8>"%string) [])]) []).
Definition md_t222 : ty := (Ty ["sp_trie"%string; "storage_proof"%string; "StorageProof"%string] [] (TComposite [(Field (Some "trie_nodes"%string) 176%N (Some "Vec<Vec<u8>>"%string) [])]) []).
Definition md_t223 : ty := (Ty [] [] (TSequence 224%N) []).
Definition md_t224 : ty := (Ty ["polkadot_core_primitives"%string; "InboundDownwardMessage"%string] [("BlockNumber"%string,(Some 4%N))] (TComposite [(Field (Some "sent_at"%string) 4%N (Some "BlockNumber"%string) []); (Field (Some "msg"%string) 10%N (Some "DownwardMessage"%string) [])]) []).
Definition md_t225 : ty := (Ty ["BTreeMap"%string] [("K"%string,(Some 109%N)); ("V"%string,(Some 226%N))] (TComposite [(Field None 228%N None [])]) []).
Definition md_t226 : ty := (Ty [] [] (TSequence 227%N) []).
Definition md_t227 : ty := (Ty ["polkadot_core_primitives"%string; "InboundHrmpMessage"%string] [("BlockNumber"%string,(Some 4%N))] (TComposite [(Field (Some "sent_at"%string) 4%N (Some "BlockNumber"%string) []); (Field (Some "data"%string) 10%N (Some "sp_std::vec::Vec<u8>"%string) [])]) []).
Definition md_t228 : ty := (Ty [] [] (TSequence 229%N) []).
Definition md_t229 : ty := (Ty [] [] (TTuple [109%N; 226%N]) []).
Definition md_t230 : ty := (Ty ["module_collator_selection"%string; "pallet"%string; "Call"%string] [("T"%string,None)] (TVariant [(Variant "set_invulnerables"%string [(Field (Some "new"%string) 56%N (Some "Vec<T::AccountId>"%string) [])] 0%N []); (Variant "set_desired_candidates"%string [(Field (Some "max"%string) 67%N (Some "u32"%string) [])] 1%N []); (Variant "set_candidacy_bond"%string [(Field (Some "bond"%string) 50%N (Some "BalanceOf<T>"%string) [])] 2%N []); (Variant "register_as_candidate"%string [] 3%N []); (Variant "register_candidate"%string [(Field (Some "new_candidate"%string) 0%N (Some "T::AccountId"%string) [])] 4%N []); (Variant "leave_intent"%string [] 5%N []); (Variant "withdraw_bond"%string [] 6%N [])]) ["Contains one variant per dispatchable that can be called by an extrinsic."%string]).
Definition md_t231 : ty := (Ty ["pallet_session"%string; "pallet"%string; "Call"%string] [("T"%string,None)] (TVariant [(Variant "set_keys"%string [(Field (Some "keys"%string) 232%N (Some "T::Keys"%string) []); (Field (Some "proof"%string) 10%N (Some "Vec<u8>"%string) [])] 0%N ["Sets the session key(s) of the function caller to `keys`."%string; "Allows an account to set its session key prior to becoming a validator."%string; "This doesn't take effect until the next session."%string; ""%string; "The dispatch origin of this function must be signed."%string; ""%string; "# <weight>"%string; "- Complexity: `O(1)`. Actual cost depends on the number of length of"%string; "  `T::Keys::key_ids()` which is fixed."%string; "- DbReads: `origin account`, `T::ValidatorIdOf`, `NextKeys`"%string; "- DbWrites: `origin account`, `NextKeys`"%string; "- DbReads per key id: `KeyOwner`"%string; "- DbWrites per key id: `KeyOwner`"%string; "# </weight>"%string]); (Variant "purge_keys"%string [] 1%N ["Removes any session key(s) of the function caller."%string; ""%string; "This doesn't take effect until the next session."%string; ""%string; "The dispatch origin of this function must be Signed and the account must be either be"%string; "convertible to a validator ID using the chain's typical addressing system (this usually"%string; "means being a controller account) or directly convertible into a validator ID (which"%string; "usually means being a stash account)."%string; ""%string; "# <weight>"%string; "- Complexity: `O(1)` in number of key types. Actual cost depends on the number of length"%string; "  of `T::Keys::key_ids()` which is fixed."%string; "- DbReads: `T::ValidatorIdOf`, `NextKeys`, `origin account`"%string; "- DbWrites: `NextKeys`, `origin account`"%string; "- DbWrites per key id: `KeyOwner`"%string; "# </weight>"%string])]) ["Contains one variant per dispatchable that can be called by an extrinsic."%string]).
Definition md_t232 : ty := (Ty ["acala_runtime"%string; "SessionKeys"%string] [] (TComposite [(Field (Some "aura"%string) 233%N (Some "<Aura as $crate::BoundToRuntimeAppPublic>::Public"%string) [])]) []).
Definition md_t233 : ty := (Ty ["sp_consensus_aura"%string; "sr25519"%string; "app_sr25519"%string; "Public"%string] [] (TComposite [(Field None 234%N (Some "sr25519::Public"%string) [])]) []).
Definition md_t234 : ty := (Ty ["sp_core"%string; "sr25519"%string; "Public"%string] [] (TComposite [(Field None 1%N (Some "[u8; 32]"%string) [])]) []).
Definition md_t235 : ty := (Ty ["module_session_manager"%string; "module"%string; "Call"%string] [("T"%string,None)] (TVariant [(Variant "schedule_session_duration"%string [(Field (Some "start_session"%string) 67%N (Some "SessionIndex"%string) []); (Field (Some "duration"%string) 67%N (Some "T::BlockNumber"%string) [])] 0%N ["Schedule a new session duration in the specified session index."%string; ""%string; "- `start_session`: the session index that the new change become effective."%string; "- `duration`:  new session duration."%string])]) ["Contains one variant per dispatchable that can be called by an extrinsic."%string]).
Definition md_t236 : ty := (Ty ["pallet_xcm"%string; "pallet"%string; "Call"%string] [("T"%string,None)] (TVariant [(Variant "send"%string [(Field (Some "dest"%string) 98%N (Some "Box<VersionedMultiLocation>"%string) []); (Field (Some "message"%string) 237%N (Some "Box<VersionedXcm<()>>"%string) [])] 0%N []); (Variant "teleport_assets"%string [(Field (Some "dest"%string) 98%N (Some "Box<VersionedMultiLocation>"%string) []); (Field (Some "beneficiary"%string) 98%N (Some "Box<VersionedMultiLocation>"%string) []); (Field (Some "assets"%string) 93%N (Some "Box<VersionedMultiAssets>"%string) []); (Field (Some "fee_asset_item"%string) 4%N (Some "u32"%string) [])] 1%N ["Teleport some assets from the local chain to some destination chain."%string; ""%string; "Fee payment on the destination side is made from the first asset listed in the `assets` vector and"%string; "fee-weight is calculated locally and thus remote weights are assumed to be equal to"%string; "local weights."%string; ""%string; "- `origin`: Must be capable of withdrawing the `assets` and executing XCM."%string; "- `dest`: Destination context for the assets. Will typically be `X2(Parent, Parachain(..))` to send"%string; "  from parachain to parachain, or `X1(Parachain(..))` to send from relay to parachain."%string; "- `beneficiary`: A beneficiary location for the assets in the context of `dest`. Will generally be"%string; "  an `AccountId32` value."%string; "- `assets`: The assets to be withdrawn. The first item should be the currency used to to pay the fee on the"%string; "  `dest` side. May not be empty."%string; "- `dest_weight`: Equal to the total weight on `dest` of the XCM message"%string; "  `Teleport { assets, effects: [ BuyExecution{..}, DepositAsset{..} ] }`."%string]); (Variant "reserve_transfer_assets"%string [(Field (Some "dest"%string) 98%N (Some "Box<VersionedMultiLocation>"%string) []); (Field (Some "beneficiary"%string) 98%N (Some "Box<VersionedMultiLocation>"%string) []); (Field (Some "assets"%string) 93%N (Some "Box<VersionedMultiAssets>"%string) []); (Field (Some "fee_asset_item"%string) 4%N (Some "u32"%string) [])] 2%N ["Transfer some assets from the local chain to the sovereign account of a destination chain and forward"%string; "a notification XCM."%string; ""%string; "Fee payment on the destination side is made from the first asset listed in the `assets` vector and"%string; "fee-weight is calculated locally and thus remote weights are assumed to be equal to"%string; "local weights."%string; ""%string; "- `origin`: Must be capable of withdrawing the `assets` and executing XCM."%string; "- `dest`: Destination context for the assets. Will typically be `X2(Parent, Parachain(..))` to send"%string; "  from parachain to parachain, or `X1(Parachain(..))` to send from relay to parachain."%string; "- `beneficiary`: A beneficiary location for the assets in the context of `dest`. Will generally be"%string; "  an `AccountId32` value."%string; "- `assets`: The assets to be withdrawn. This should include the assets used to pay the fee on the"%string; "  `dest` side."%string; "- `fee_asset_item`: The index into `assets` of the item which should be used to pay"%string; "  fees."%string]); (Variant "execute"%string [(Field (Some "message"%string) 248%N (Some "Box<VersionedXcm<<T as SysConfig>::Call>>"%string) []); (Field (Some "max_weight"%string) 8%N (Some "Weight"%string) [])] 3%N ["Execute an XCM message from a local, signed, origin."%string; ""%string; "An event is deposited indicating whether `msg` could be executed completely or only"%string; "partially."%string; ""%string; "No more than `max_weight` will be used in its attempted execution. If this is less than the"%string; "maximum amount of weight that the message could take to be executed, then no execution"%string; "attempt will be made."%string; ""%string; "NOTE: A successful return to this does *not* imply that the `msg` was executed successfully"%string; "to completion; only that *some* of it was executed."%string]); (Variant "force_xcm_version"%string [(Field (Some "location"%string) 64%N (Some "Box<MultiLocation>"%string) []); (Field (Some "xcm_version"%string) 4%N (Some "XcmVersion"%string) [])] 4%N ["Extoll that a particular destination can be communicated with through a particular"%string; "version of XCM."%string; ""%string; "- `origin`: Must be Root."%string; "- `location`: The destination that is being described."%string; "- `xcm_version`: The latest version of XCM that `location` supports."%string]); (Variant "force_default_xcm_version"%string [(Field (Some "maybe_xcm_version"%string) 261%N (Some "Option<XcmVersion>"%string) [])] 5%N ["Set a safe XCM version (the version that XCM should be encoded with if the most recent"%string; "version a destination can accept is unknown)."%string; ""%string; "- `origin`: Must be Root."%string; "- `maybe_xcm_version`: The default XCM encoding version, or `None` to disable."%string]); (Variant "force_subscribe_version_notify"%string [(Field (Some "location"%string) 98%N (Some "Box<VersionedMultiLocation>"%string) [])] 6%N ["Ask a location to notify us regarding their XCM version and any changes to it."%string; ""%string; "- `origin`: Must be Root."%string; "- `location`: The location to which we should subscribe for XCM version notifications."%string]); (Variant "force_unsubscribe_version_notify"%string [(Field (Some "location"%string) 98%N (Some "Box<VersionedMultiLocation>"%string) [])] 7%N ["Require that a particular destination should no longer notify us regarding any XCM"%string; "version changes."%string; ""%string; "- `origin`: Must be Root."%string; "- `location`: The location to which we are currently subscribed for XCM version"%string; "  notifications which we no longer desire."%string]); (Variant "limited_reserve_transfer_assets"%string [(Field (Some "dest"%string) 98%N (Some "Box<VersionedMultiLocation>"%string) []); (Field (Some "beneficiary"%string) 98%N (Some "Box<VersionedMultiLocation>"%string) []); (Field (Some "assets"%string) 93%N (Some "Box<VersionedMultiAssets>"%string) []); (Field (Some "fee_asset_item"%string) 4%N (Some "u32"%string) []); (Field (Some "weight_limit"%string) 91%N (Some "WeightLimit"%string) [])] 8%N ["Transfer some assets from the local chain to the sovereign account of a destination chain and forward"%string; "a notification XCM."%string; ""%string; "Fee payment on the destination side is made from the first asset listed in the `assets` vector."%string; ""%string; "- `origin`: Must be capable of withdrawing the `assets` and executing XCM."%string; "- `dest`: Destination context for the assets. Will typically be `X2(Parent, Parachain(..))` to send"%string; "  from parachain to parachain, or `X1(Parachain(..))` to send from relay to parachain."%string; "- `beneficiary`: A beneficiary location for the assets in the context of `dest`. Will generally be"%string; "  an `AccountId32` value."%string; "- `assets`: The assets to be withdrawn. This should include the assets used to pay the fee on the"%string; "  `dest` side."%string; "- `fee_asset_item`: The index into `assets` of the item which should be used to pay"%string; "  fees."%string; "- `weight_limit`: The remote-side weight limit, if any, for the XCM fee purchase."%string]); (Variant "limited_teleport_assets"%string [(Field (Some "dest"%string) 98%N (Some "Box<VersionedMultiLocation>"%string) []); (Field (Some "beneficiary"%string) 98%N (Some "Box<VersionedMultiLocation>"%string) []); (Field (Some "assets"%string) 93%N (Some "Box<VersionedMultiAssets>"%string) []); (Field (Some "fee_asset_item"%string) 4%N (Some "u32"%string) []); (Field (Some "weight_limit"%string) 91%N (Some "WeightLimit"%string) [])] 9%N ["Teleport some assets from the local chain to some destination chain."%string; ""%string; "Fee payment on the destination side is made from the first asset listed in the `assets` vector."%string; ""%string; "- `origin`: Must be capable of withdrawing the `assets` and executing XCM."%string; "- `dest`: Destination context for the assets. Will typically be `X2(Parent, Parachain(..))` to send"%string; "  from parachain to parachain, or `X1(Parachain(..))` to send from relay to parachain."%string; "- `beneficiary`: A beneficiary location for the assets in the context of `dest`. Will generally be"%string; "  an `AccountId32` value."%string; "- `assets`: The assets to be withdrawn. The first item should be the currency used to to pay the fee on the"%string; "  `dest` side. May not be empty."%string; "- `dest_weight`: Equal to the total weight on `dest` of the XCM message"%string; "  `Teleport { assets, effects: [ BuyExecution{..}, DepositAsset{..} ] }`."%string; "- `weight_limit`: The remote-side weight limit, if any, for the XCM fee purchase."%string])]) ["Contains one variant per dispatchable that can be called by an extrinsic."%string]).
Definition md_t237 : ty := (Ty ["xcm"%string; "VersionedXcm"%string] [("Call"%string,None)] (TVariant [(Variant "V0"%string [(Field None 238%N (Some "v0::Xcm<Call>"%string) [])] 0%N []); (Variant "V1"%string [(Field None 243%N (Some "v1::Xcm<Call>"%string) [])] 1%N []); (Variant "V2"%string [(Field None 72%N (Some "v2::Xcm<Call>"%string) [])] 2%N [])]) []).
Definition md_t238 : ty := (Ty ["xcm"%string; "v0"%string; "Xcm"%string] [("Call"%string,None)] (TVariant [(Variant "WithdrawAsset"%string [(Field (Some "assets"%string) 94%N (Some "Vec<MultiAsset>"%string) []); (Field (Some "effects"%string) 239%N (Some "Vec<Order<Call>>"%string) [])] 0%N []); (Variant "ReserveAssetDeposit"%string [(Field (Some "assets"%string) 94%N (Some "Vec<MultiAsset>"%string) []); (Field (Some "effects"%string) 239%N (Some "Vec<Order<Call>>"%string) [])] 1%N []); (Variant "TeleportAsset"%string [(Field (Some "assets"%string) 94%N (Some "Vec<MultiAsset>"%string) []); (Field (Some "effects"%string) 239%N (Some "Vec<Order<Call>>"%string) [])] 2%N []); (Variant "QueryResponse"%string [(Field (Some "query_id"%string) 69%N (Some "u64"%string) []); (Field (Some "response"%string) 242%N (Some "Response"%string) [])] 3%N []); (Variant "TransferAsset"%string [(Field (Some "assets"%string) 94%N (Some "Vec<MultiAsset>"%string) []); (Field (Some "dest"%string) 96%N (Some "MultiLocation"%string) [])] 4%N []); (Variant "TransferReserveAsset"%string [(Field (Some "assets"%string) 94%N (Some "Vec<MultiAsset>"%string) []); (Field (Some "dest"%string) 96%N (Some "MultiLocation"%string) []); (Field (Some "effects"%string) 239%N (Some "Vec<Order<()>>"%string) [])] 5%N []); (Variant "Transact"%string [(Field (Some "origin_type"%string) 86%N (Some "OriginKind"%string) []); (Field (Some "require_weight_at_most"%string) 8%N (Some "u64"%string) []); (Field (Some "call"%string) 87%N (Some "DoubleEncoded<Call>"%string) [])] 6%N []); (Variant "HrmpNewChannelOpenRequest"%string [(Field (Some "sender"%string) 67%N (Some "u32"%string) []); (Field (Some "max_message_size"%string) 67%N (Some "u32"%string) []); (Field (Some "max_capacity"%string) 67%N (Some "u32"%string) [])] 7%N []); (Variant "HrmpChannelAccepted"%string [(Field (Some "recipient"%string) 67%N (Some "u32"%string) [])] 8%N []); (Variant "HrmpChannelClosing"%string [(Field (Some "initiator"%string) 67%N (Some "u32"%string) []); (Field (Some "sender"%string) 67%N (Some "u32"%string) []); (Field (Some "recipient"%string) 67%N (Some "u32"%string) [])] 9%N []); (Variant "RelayedFrom"%string [(Field (Some "who"%string) 96%N (Some "MultiLocation"%string) []); (Field (Some "message"%string) 238%N (Some "alloc::boxed::Box<Xcm<Call>>"%string) [])] 10%N [])]) []).
Definition md_t239 : ty := (Ty [] [] (TSequence 240%N) []).
Definition md_t240 : ty := (Ty ["xcm"%string; "v0"%string; "order"%string; "Order"%string] [("Call"%string,None)] (TVariant [(Variant "Null"%string [] 0%N []); (Variant "DepositAsset"%string [(Field (Some "assets"%string) 94%N (Some "Vec<MultiAsset>"%string) []); (Field (Some "dest"%string) 96%N (Some "MultiLocation"%string) [])] 1%N []); (Variant "DepositReserveAsset"%string [(Field (Some "assets"%string) 94%N (Some "Vec<MultiAsset>"%string) []); (Field (Some "dest"%string) 96%N (Some "MultiLocation"%string) []); (Field (Some "effects"%string) 239%N (Some "Vec<Order<()>>"%string) [])] 2%N []); (Variant "ExchangeAsset"%string [(Field (Some "give"%string) 94%N (Some "Vec<MultiAsset>"%string) []); (Field (Some "receive"%string) 94%N (Some "Vec<MultiAsset>"%string) [])] 3%N []); (Variant "InitiateReserveWithdraw"%string [(Field (Some "assets"%string) 94%N (Some "Vec<MultiAsset>"%string) []); (Field (Some "reserve"%string) 96%N (Some "MultiLocation"%string) []); (Field (Some "effects"%string) 239%N (Some "Vec<Order<()>>"%string) [])] 4%N []); (Variant "InitiateTeleport"%string [(Field (Some "assets"%string) 94%N (Some "Vec<MultiAsset>"%string) []); (Field (Some "dest"%string) 96%N (Some "MultiLocation"%string) []); (Field (Some "effects"%string) 239%N (Some "Vec<Order<()>>"%string) [])] 5%N []); (Variant "QueryHolding"%string [(Field (Some "query_id"%string) 69%N (Some "u64"%string) []); (Field (Some "dest"%string) 96%N (Some "MultiLocation"%string) []); (Field (Some "assets"%string) 94%N (Some "Vec<MultiAsset>"%string) [])] 6%N []); (Variant "BuyExecution"%string [(Field (Some "fees"%string) 95%N (Some "MultiAsset"%string) []); (Field (Some "weight"%string) 8%N (Some "u64"%string) []); (Field (Some "debt"%string) 8%N (Some "u64"%string) []); (Field (Some "halt_on_error"%string) 118%N (Some "bool"%string) []); (Field (Some "xcm"%string) 241%N (Some "Vec<Xcm<Call>>"%string) [])] 7%N [])]) []).
Definition md_t241 : ty := (Ty [] [] (TSequence 238%N) []).
Definition md_t242 : ty := (Ty ["xcm"%string; "v0"%string; "Response"%string] [] (TVariant [(Variant "Assets"%string [(Field None 94%N (Some "Vec<MultiAsset>"%string) [])] 0%N [])]) []).
Definition md_t243 : ty := (Ty ["xcm"%string; "v1"%string; "Xcm"%string] [("Call"%string,None)] (TVariant [(Variant "WithdrawAsset"%string [(Field (Some "assets"%string) 75%N (Some "MultiAssets"%string) []); (Field (Some "effects"%string) 244%N (Some "Vec<Order<Call>>"%string) [])] 0%N []); (Variant "ReserveAssetDeposited"%string [(Field (Some "assets"%string) 75%N (Some "MultiAssets"%string) []); (Field (Some "effects"%string) 244%N (Some "Vec<Order<Call>>"%string) [])] 1%N []); (Variant "ReceiveTeleportedAsset"%string [(Field (Some "assets"%string) 75%N (Some "MultiAssets"%string) []); (Field (Some "effects"%string) 244%N (Some "Vec<Order<Call>>"%string) [])] 2%N []); (Variant "QueryResponse"%string [(Field (Some "query_id"%string) 69%N (Some "u64"%string) []); (Field (Some "response"%string) 247%N (Some "Response"%string) [])] 3%N []); (Variant "TransferAsset"%string [(Field (Some "assets"%string) 75%N (Some "MultiAssets"%string) []); (Field (Some "beneficiary"%string) 64%N (Some "MultiLocation"%string) [])] 4%N []); (Variant "TransferReserveAsset"%string [(Field (Some "assets"%string) 75%N (Some "MultiAssets"%string) []); (Field (Some "dest"%string) 64%N (Some "MultiLocation"%string) []); (Field (Some "effects"%string) 244%N (Some "Vec<Order<()>>"%string) [])] 5%N []); (Variant "Transact"%string [(Field (Some "origin_type"%string) 86%N (Some "OriginKind"%string) []); (Field (Some "require_weight_at_most"%string) 8%N (Some "u64"%string) []); (Field (Some "call"%string) 87%N (Some "DoubleEncoded<Call>"%string) [])] 6%N []); (Variant "HrmpNewChannelOpenRequest"%string [(Field (Some "sender"%string) 67%N (Some "u32"%string) []); (Field (Some "max_message_size"%string) 67%N (Some "u32"%string) []); (Field (Some "max_capacity"%string) 67%N (Some "u32"%string) [])] 7%N []); (Variant "HrmpChannelAccepted"%string [(Field (Some "recipient"%string) 67%N (Some "u32"%string) [])] 8%N []); (Variant "HrmpChannelClosing"%string [(Field (Some "initiator"%string) 67%N (Some "u32"%string) []); (Field (Some "sender"%string) 67%N (Some "u32"%string) []); (Field (Some "recipient"%string) 67%N (Some "u32"%string) [])] 9%N []); (Variant "RelayedFrom"%string [(Field (Some "who"%string) 65%N (Some "InteriorMultiLocation"%string) []); (Field (Some "message"%string) 243%N (Some "alloc::boxed::Box<Xcm<Call>>"%string) [])] 10%N []); (Variant "SubscribeVersion"%string [(Field (Some "query_id"%string) 69%N (Some "u64"%string) []); (Field (Some "max_response_weight"%string) 69%N (Some "u64"%string) [])] 11%N []); (Variant "UnsubscribeVersion"%string [] 12%N [])]) []).
Definition md_t244 : ty := (Ty [] [] (TSequence 245%N) []).
Definition md_t245 : ty := (Ty ["xcm"%string; "v1"%string; "order"%string; "Order"%string] [("Call"%string,None)] (TVariant [(Variant "Noop"%string [] 0%N []); (Variant "DepositAsset"%string [(Field (Some "assets"%string) 88%N (Some "MultiAssetFilter"%string) []); (Field (Some "max_assets"%string) 4%N (Some "u32"%string) []); (Field (Some "beneficiary"%string) 64%N (Some "MultiLocation"%string) [])] 1%N []); (Variant "DepositReserveAsset"%string [(Field (Some "assets"%string) 88%N (Some "MultiAssetFilter"%string) []); (Field (Some "max_assets"%string) 4%N (Some "u32"%string) []); (Field (Some "dest"%string) 64%N (Some "MultiLocation"%string) []); (Field (Some "effects"%string) 244%N (Some "Vec<Order<()>>"%string) [])] 2%N []); (Variant "ExchangeAsset"%string [(Field (Some "give"%string) 88%N (Some "MultiAssetFilter"%string) []); (Field (Some "receive"%string) 75%N (Some "MultiAssets"%string) [])] 3%N []); (Variant "InitiateReserveWithdraw"%string [(Field (Some "assets"%string) 88%N (Some "MultiAssetFilter"%string) []); (Field (Some "reserve"%string) 64%N (Some "MultiLocation"%string) []); (Field (Some "effects"%string) 244%N (Some "Vec<Order<()>>"%string) [])] 4%N []); (Variant "InitiateTeleport"%string [(Field (Some "assets"%string) 88%N (Some "MultiAssetFilter"%string) []); (Field (Some "dest"%string) 64%N (Some "MultiLocation"%string) []); (Field (Some "effects"%string) 244%N (Some "Vec<Order<()>>"%string) [])] 5%N []); (Variant "QueryHolding"%string [(Field (Some "query_id"%string) 69%N (Some "u64"%string) []); (Field (Some "dest"%string) 64%N (Some "MultiLocation"%string) []); (Field (Some "assets"%string) 88%N (Some "MultiAssetFilter"%string) [])] 6%N []); (Variant "BuyExecution"%string [(Field (Some "fees"%string) 77%N (Some "MultiAsset"%string) []); (Field (Some "weight"%string) 8%N (Some "u64"%string) []); (Field (Some "debt"%string) 8%N (Some "u64"%string) []); (Field (Some "halt_on_error"%string) 118%N (Some "bool"%string) []); (Field (Some "instructions"%string) 246%N (Some "Vec<Xcm<Call>>"%string) [])] 7%N [])]) []).
Definition md_t246 : ty := (Ty [] [] (TSequence 243%N) []).
Definition md_t247 : ty := (Ty ["xcm"%string; "v1"%string; "Response"%string] [] (TVariant [(Variant "Assets"%string [(Field None 75%N (Some "MultiAssets"%string) [])] 0%N []); (Variant "Version"%string [(Field None 4%N (Some "super::Version"%string) [])] 1%N [])]) []).
Definition md_t248 : ty := (Ty ["xcm"%string; "VersionedXcm"%string] [("Call"%string,None)] (TVariant [(Variant "V0"%string [(Field None 249%N (Some "v0::Xcm<Call>"%string) [])] 0%N []); (Variant "V1"%string [(Field None 254%N (Some "v1::Xcm<Call>"%string) [])] 1%N []); (Variant "V2"%string [(Field None 258%N (Some "v2::Xcm<Call>"%string) [])] 2%N [])]) []).
Definition md_t249 : ty := (Ty ["xcm"%string; "v0"%string; "Xcm"%string] [("Call"%string,None)] (TVariant [(Variant "WithdrawAsset"%string [(Field (Some "assets"%string) 94%N (Some "Vec<MultiAsset>"%string) []); (Field (Some "effects"%string) 250%N (Some "Vec<Order<Call>>"%string) [])] 0%N []); (Variant "ReserveAssetDeposit"%string [(Field (Some "assets"%string) 94%N (Some "Vec<MultiAsset>"%string) []); (Field (Some "effects"%string) 250%N (Some "Vec<Order<Call>>"%string) [])] 1%N []); (Variant "TeleportAsset"%string [(Field (Some "assets"%string) 94%N (Some "Vec<MultiAsset>"%string) []); (Field (Some "effects"%string) 250%N (Some "Vec<Order<Call>>"%string) [])] 2%N []); (Variant "QueryResponse"%string [(Field (Some "query_id"%string) 69%N (Some "u64"%string) []); (Field (Some "response"%string) 242%N (Some "Response"%string) [])] 3%N []); (Variant "TransferAsset"%string [(Field (Some "assets"%string) 94%N (Some "Vec<MultiAsset>"%string) []); (Field (Some "dest"%string) 96%N (Some "MultiLocation"%string) [])] 4%N []); (Variant "TransferReserveAsset"%string [(Field (Some "assets"%string) 94%N (Some "Vec<MultiAsset>"%string) []); (Field (Some "dest"%string) 96%N (Some "MultiLocation"%string) []); (Field (Some "effects"%string) 239%N (Some "Vec<Order<()>>"%string) [])] 5%N []); (Variant "Transact"%string [(Field (Some "origin_type"%string) 86%N (Some "OriginKind"%string) []); (Field (Some "require_weight_at_most"%string) 8%N (Some "u64"%string) []); (Field (Some "call"%string) 253%N (Some "DoubleEncoded<Call>"%string) [])] 6%N []); (Variant "HrmpNewChannelOpenRequest"%string [(Field (Some "sender"%string) 67%N (Some "u32"%string) []); (Field (Some "max_message_size"%string) 67%N (Some "u32"%string) []); (Field (Some "max_capacity"%string) 67%N (Some "u32"%string) [])] 7%N []); (Variant "HrmpChannelAccepted"%string [(Field (Some "recipient"%string) 67%N (Some "u32"%string) [])] 8%N []); (Variant "HrmpChannelClosing"%string [(Field (Some "initiator"%string) 67%N (Some "u32"%string) []); (Field (Some "sender"%string) 67%N (Some "u32"%string) []); (Field (Some "recipient"%string) 67%N (Some "u32"%string) [])] 9%N []); (Variant "RelayedFrom"%string [(Field (Some "who"%string) 96%N (Some "MultiLocation"%string) []); (Field (Some "message"%string) 249%N (Some "alloc::boxed::Box<Xcm<Call>>"%string) [])] 10%N [])]) []).
Definition md_t250 : ty := (Ty [] [] (TSequence 251%N) []).
Definition md_t251 : ty := (Ty ["xcm"%string; "v0"%string; "order"%string; "Order"%string] [("Call"%string,None)] (TVariant [(Variant "Null"%string [] 0%N []); (Variant "DepositAsset"%string [(Field (Some "assets"%string) 94%N (Some "Vec<MultiAsset>"%string) []); (Field (Some "dest"%string) 96%N (Some "MultiLocation"%string) [])] 1%N []); (Variant "DepositReserveAsset"%string [(Field (Some "assets"%string) 94%N (Some "Vec<MultiAsset>"%string) []); (Field (Some "dest"%string) 96%N (Some "MultiLocation"%string) []); (Field (Some "effects"%string) 239%N (Some "Vec<Order<()>>"%string) [])] 2%N []); (Variant "ExchangeAsset"%string [(Field (Some "give"%string) 94%N (Some "Vec<MultiAsset>"%string) []); (Field (Some "receive"%string) 94%N (Some "Vec<MultiAsset>"%string) [])] 3%N []); (Variant "InitiateReserveWithdraw"%string [(Field (Some "assets"%string) 94%N (Some "Vec<MultiAsset>"%string) []); (Field (Some "reserve"%string) 96%N (Some "MultiLocation"%string) []); (Field (Some "effects"%string) 239%N (Some "Vec<Order<()>>"%string) [])] 4%N []); (Variant "InitiateTeleport"%string [(Field (Some "assets"%string) 94%N (Some "Vec<MultiAsset>"%string) []); (Field (Some "dest"%string) 96%N (Some "MultiLocation"%string) []); (Field (Some "effects"%string) 239%N (Some "Vec<Order<()>>"%string) [])] 5%N []); (Variant "QueryHolding"%string [(Field (Some "query_id"%string) 69%N (Some "u64"%string) []); (Field (Some "dest"%string) 96%N (Some "MultiLocation"%string) []); (Field (Some "assets"%string) 94%N (Some "Vec<MultiAsset>"%string) [])] 6%N []); (Variant "BuyExecution"%string [(Field (Some "fees"%string) 95%N (Some "MultiAsset"%string) []); (Field (Some "weight"%string) 8%N (Some "u64"%string) []); (Field (Some "debt"%string) 8%N (Some "u64"%string) []); (Field (Some "halt_on_error"%string) 118%N (Some "bool"%string) []); (Field (Some "xcm"%string) 252%N (Some "Vec<Xcm<Call>>"%string) [])] 7%N [])]) []).
Definition md_t252 : ty := (Ty [] [] (TSequence 249%N) []).
Definition md_t253 : ty := (Ty ["xcm"%string; "double_encoded"%string; "DoubleEncoded"%string] [("T"%string,None)] (TComposite [(Field (Some "encoded"%string) 10%N (Some "Vec<u8>"%string) [])]) []).
Definition md_t254 : ty := (Ty ["xcm"%string; "v1"%string; "Xcm"%string] [("Call"%string,None)] (TVariant [(Variant "WithdrawAsset"%string [(Field (Some "assets"%string) 75%N (Some "MultiAssets"%string) []); (Field (Some "effects"%string) 255%N (Some "Vec<Order<Call>>"%string) [])] 0%N []); (Variant "ReserveAssetDeposited"%string [(Field (Some "assets"%string) 75%N (Some "MultiAssets"%string) []); (Field (Some "effects"%string) 255%N (Some "Vec<Order<Call>>"%string) [])] 1%N []); (Variant "ReceiveTeleportedAsset"%string [(Field (Some "assets"%string) 75%N (Some "MultiAssets"%string) []); (Field (Some "effects"%string) 255%N (Some "Vec<Order<Call>>"%string) [])] 2%N []); (Variant "QueryResponse"%string [(Field (Some "query_id"%string) 69%N (Some "u64"%string) []); (Field (Some "response"%string) 247%N (Some "Response"%string) [])] 3%N []); (Variant "TransferAsset"%string [(Field (Some "assets"%string) 75%N (Some "MultiAssets"%string) []); (Field (Some "beneficiary"%string) 64%N (Some "MultiLocation"%string) [])] 4%N []); (Variant "TransferReserveAsset"%string [(Field (Some "assets"%string) 75%N (Some "MultiAssets"%string) []); (Field (Some "dest"%string) 64%N (Some "MultiLocation"%string) []); (Field (Some "effects"%string) 244%N (Some "Vec<Order<()>>"%string) [])] 5%N []); (Variant "Transact"%string [(Field (Some "origin_type"%string) 86%N (Some "OriginKind"%string) []); (Field (Some "require_weight_at_most"%string) 8%N (Some "u64"%string) []); (Field (Some "call"%string) 253%N (Some "DoubleEncoded<Call>"%string) [])] 6%N []); (Variant "HrmpNewChannelOpenRequest"%string [(Field (Some "sender"%string) 67%N (Some "u32"%string) []); (Field (Some "max_message_size"%string) 67%N (Some "u32"%string) []); (Field (Some "max_capacity"%string) 67%N (Some "u32"%string) [])] 7%N []); (Variant "HrmpChannelAccepted"%string [(Field (Some "recipient"%string) 67%N (Some "u32"%string) [])] 8%N []); (Variant "HrmpChannelClosing"%string [(Field (Some "initiator"%string) 67%N (Some "u32"%string) []); (Field (Some "sender"%string) 67%N (Some "u32"%string) []); (Field (Some "recipient"%string) 67%N (Some "u32"%string) [])] 9%N []); (Variant "RelayedFrom"%string [(Field (Some "who"%string) 65%N (Some "InteriorMultiLocation"%string) []); (Field (Some "message"%string) 254%N (Some "alloc::boxed::Box<Xcm<Call>>"%string) [])] 10%N []); (Variant "SubscribeVersion"%string [(Field (Some "query_id"%string) 69%N (Some "u64"%string) []); (Field (Some "max_response_weight"%string) 69%N (Some "u64"%string) [])] 11%N []); (Variant "UnsubscribeVersion"%string [] 12%N [])]) []).
Definition md_t255 : ty := (Ty [] [] (TSequence 256%N) []).
Definition md_t256 : ty := (Ty ["xcm"%string; "v1"%string; "order"%string; "Order"%string] [("Call"%string,None)] (TVariant [(Variant "Noop"%string [] 0%N []); (Variant "DepositAsset"%string [(Field (Some "assets"%string) 88%N (Some "MultiAssetFilter"%string) []); (Field (Some "max_assets"%string) 4%N (Some "u32"%string) []); (Field (Some "beneficiary"%string) 64%N (Some "MultiLocation"%string) [])] 1%N []); (Variant "DepositReserveAsset"%string [(Field (Some "assets"%string) 88%N (Some "MultiAssetFilter"%string) []); (Field (Some "max_assets"%string) 4%N (Some "u32"%string) []); (Field (Some "dest"%string) 64%N (Some "MultiLocation"%string) []); (Field (Some "effects"%string) 244%N (Some "Vec<Order<()>>"%string) [])] 2%N []); (Variant "ExchangeAsset"%string [(Field (Some "give"%string) 88%N (Some "MultiAssetFilter"%string) []); (Field (Some "receive"%string) 75%N (Some "MultiAssets"%string) [])] 3%N []); (Variant "InitiateReserveWithdraw"%string [(Field (Some "assets"%string) 88%N (Some "MultiAssetFilter"%string) []); (Field (Some "reserve"%string) 64%N (Some "MultiLocation"%string) []); (Field (Some "effects"%string) 244%N (Some "Vec<Order<()>>"%string) [])] 4%N []); (Variant "InitiateTeleport"%string [(Field (Some "assets"%string) 88%N (Some "MultiAssetFilter"%string) []); (Field (Some "dest"%string) 64%N (Some "MultiLocation"%string) []); (Field (Some "effects"%string) 244%N (Some "Vec<Order<()>>"%string) [])] 5%N []); (Variant "QueryHolding"%string [(Field (Some "query_id"%string) 69%N (Some "u64"%string) []); (Field (Some "dest"%string) 64%N (Some "MultiLocation"%string) []); (Field (Some "assets"%string) 88%N (Some "MultiAssetFilter"%string) [])] 6%N []); (Variant "BuyExecution"%string [(Field (Some "fees"%string) 77%N (Some "MultiAsset"%string) []); (Field (Some "weight"%string) 8%N (Some "u64"%string) []); (Field (Some "debt"%string) 8%N (Some "u64"%string) []); (Field (Some "halt_on_error"%string) 118%N (Some "bool"%string) []); (Field (Some "instructions"%string) 257%N (Some "Vec<Xcm<Call>>"%string) [])] 7%N [])]) []).
Definition md_t257 : ty := (Ty [] [] (TSequence 254%N) []).
Definition md_t258 : ty := (Ty ["xcm"%string; "v2"%string; "Xcm"%string] [("Call"%string,None)] (TComposite [(Field None 259%N (Some "Vec<Instruction<Call>>"%string) [])]) []).
Definition md_t259 : ty := (Ty [] [] (TSequence 260%N) []).
Definition md_t260 : ty := (Ty ["xcm"%string; "v2"%string; "Instruction"%string] [("Call"%string,None)] (TVariant [(Variant "WithdrawAsset"%string [(Field None 75%N (Some "MultiAssets"%string) [])] 0%N []); (Variant "ReserveAssetDeposited"%string [(Field None 75%N (Some "MultiAssets"%string) [])] 1%N []); (Variant "ReceiveTeleportedAsset"%string [(Field None 75%N (Some "MultiAssets"%string) [])] 2%N []); (Variant "QueryResponse"%string [(Field (Some "query_id"%string) 69%N (Some "QueryId"%string) []); (Field (Some "response"%string) 83%N (Some "Response"%string) []); (Field (Some "max_weight"%string) 69%N (Some "u64"%string) [])] 3%N []); (Variant "TransferAsset"%string [(Field (Some "assets"%string) 75%N (Some "MultiAssets"%string) []); (Field (Some "beneficiary"%string) 64%N (Some "MultiLocation"%string) [])] 4%N []); (Variant "TransferReserveAsset"%string [(Field (Some "assets"%string) 75%N (Some "MultiAssets"%string) []); (Field (Some "dest"%string) 64%N (Some "MultiLocation"%string) []); (Field (Some "xcm"%string) 72%N (Some "Xcm<()>"%string) [])] 5%N []); (Variant "Transact"%string [(Field (Some "origin_type"%string) 86%N (Some "OriginKind"%string) []); (Field (Some "require_weight_at_most"%string) 69%N (Some "u64"%string) []); (Field (Some "call"%string) 253%N (Some "DoubleEncoded<Call>"%string) [])] 6%N []); (Variant "HrmpNewChannelOpenRequest"%string [(Field (Some "sender"%string) 67%N (Some "u32"%string) []); (Field (Some "max_message_size"%string) 67%N (Some "u32"%string) []); (Field (Some "max_capacity"%string) 67%N (Some "u32"%string) [])] 7%N []); (Variant "HrmpChannelAccepted"%string [(Field (Some "recipient"%string) 67%N (Some "u32"%string) [])] 8%N []); (Variant "HrmpChannelClosing"%string [(Field (Some "initiator"%string) 67%N (Some "u32"%string) []); (Field (Some "sender"%string) 67%N (Some "u32"%string) []); (Field (Some "recipient"%string) 67%N (Some "u32"%string) [])] 9%N []); (Variant "ClearOrigin"%string [] 10%N []); (Variant "DescendOrigin"%string [(Field None 65%N (Some "InteriorMultiLocation"%string) [])] 11%N []); (Variant "ReportError"%string [(Field (Some "query_id"%string) 69%N (Some "QueryId"%string) []); (Field (Some "dest"%string) 64%N (Some "MultiLocation"%string) []); (Field (Some "max_response_weight"%string) 69%N (Some "u64"%string) [])] 12%N []); (Variant "DepositAsset"%string [(Field (Some "assets"%string) 88%N (Some "MultiAssetFilter"%string) []); (Field (Some "max_assets"%string) 67%N (Some "u32"%string) []); (Field (Some "beneficiary"%string) 64%N (Some "MultiLocation"%string) [])] 13%N []); (Variant "DepositReserveAsset"%string [(Field (Some "assets"%string) 88%N (Some "MultiAssetFilter"%string) []); (Field (Some "max_assets"%string) 67%N (Some "u32"%string) []); (Field (Some "dest"%string) 64%N (Some "MultiLocation"%string) []); (Field (Some "xcm"%string) 72%N (Some "Xcm<()>"%string) [])] 14%N []); (Variant "ExchangeAsset"%string [(Field (Some "give"%string) 88%N (Some "MultiAssetFilter"%string) []); (Field (Some "receive"%string) 75%N (Some "MultiAssets"%string) [])] 15%N []); (Variant "InitiateReserveWithdraw"%string [(Field (Some "assets"%string) 88%N (Some "MultiAssetFilter"%string) []); (Field (Some "reserve"%string) 64%N (Some "MultiLocation"%string) []); (Field (Some "xcm"%string) 72%N (Some "Xcm<()>"%string) [])] 16%N []); (Variant "InitiateTeleport"%string [(Field (Some "assets"%string) 88%N (Some "MultiAssetFilter"%string) []); (Field (Some "dest"%string) 64%N (Some "MultiLocation"%string) []); (Field (Some "xcm"%string) 72%N (Some "Xcm<()>"%string) [])] 17%N []); (Variant "QueryHolding"%string [(Field (Some "query_id"%string) 69%N (Some "QueryId"%string) []); (Field (Some "dest"%string) 64%N (Some "MultiLocation"%string) []); (Field (Some "assets"%string) 88%N (Some "MultiAssetFilter"%string) []); (Field (Some "max_response_weight"%string) 69%N (Some "u64"%string) [])] 18%N []); (Variant "BuyExecution"%string [(Field (Some "fees"%string) 77%N (Some "MultiAsset"%string) []); (Field (Some "weight_limit"%string) 91%N (Some "WeightLimit"%string) [])] 19%N []); (Variant "RefundSurplus"%string [] 20%N []); (Variant "SetErrorHandler"%string [(Field None 258%N (Some "Xcm<Call>"%string) [])] 21%N []); (Variant "SetAppendix"%string [(Field None 258%N (Some "Xcm<Call>"%string) [])] 22%N []); (Variant "ClearError"%string [] 23%N []); (Variant "ClaimAsset"%string [(Field (Some "assets"%string) 75%N (Some "MultiAssets"%string) []); (Field (Some "ticket"%string) 64%N (Some "MultiLocation"%string) [])] 24%N []); (Variant "Trap"%string [(Field None 69%N (Some "u64"%string) [])] 25%N []); (Variant "SubscribeVersion"%string [(Field (Some "query_id"%string) 69%N (Some "QueryId"%string) []); (Field (Some "max_response_weight"%string) 69%N (Some "u64"%string) [])] 26%N []); (Variant "UnsubscribeVersion"%string [] 27%N [])]) []).
Definition md_t261 : ty := (Ty ["Option"%string] [("T"%string,(Some 4%N))] (TVariant [(Variant "None"%string [] 0%N []); (Variant "Some"%string [(Field None 4%N None [])] 1%N [])]) []).
Definition md_t262 : ty := (Ty ["cumulus_pallet_dmp_queue"%string; "pallet"%string; "Call"%string] [("T"%string,None)] (TVariant [(Variant "service_overweight"%string [(Field (Some "index"%string) 8%N (Some "OverweightIndex"%string) []); (Field (Some "weight_limit"%string) 8%N (Some "Weight"%string) [])] 0%N ["Service a single overweight message."%string; ""%string; "- `origin`: Must pass `ExecuteOverweightOrigin`."%string; "- `index`: The index of the overweight message to service."%string; "- `weight_limit`: The amount of weight that message execution may take."%string; ""%string; "Errors:"%string; "- `Unknown`: Message of `index` is unknown."%string; "- `OverLimit`: Message execution may use greater than `weight_limit`."%string; ""%string; "Events:"%string; "- `OverweightServiced`: On success."%string])]) ["Contains one variant per dispatchable that can be called by an extrinsic."%string]).
Definition md_t263 : ty := (Ty ["orml_xtokens"%string; "module"%string; "Call"%string] [("T"%string,None)] (TVariant [(Variant "transfer"%string [(Field (Some "currency_id"%string) 41%N (Some "T::CurrencyId"%string) []); (Field (Some "amount"%string) 6%N (Some "T::Balance"%string) []); (Field (Some "dest"%string) 98%N (Some "Box<VersionedMultiLocation>"%string) []); (Field (Some "dest_weight"%string) 8%N (Some "Weight"%string) [])] 0%N ["Transfer native currencies."%string; ""%string; "`dest_weight` is the weight for XCM execution on the dest chain, and"%string; "it would be charged from the transferred assets. If set below"%string; "requirements, the execution may fail and assets wouldn't be"%string; "received."%string; ""%string; "It's a no-op if any error on local XCM execution or message sending."%string; "Note sending assets out per se doesn't guarantee they would be"%string; "received. Receiving depends on if the XCM message could be delivered"%string; "by the network, and if the receiving chain would handle"%string; "messages correctly."%string]); (Variant "transfer_multiasset"%string [(Field (Some "asset"%string) 264%N (Some "Box<VersionedMultiAsset>"%string) []); (Field (Some "dest"%string) 98%N (Some "Box<VersionedMultiLocation>"%string) []); (Field (Some "dest_weight"%string) 8%N (Some "Weight"%string) [])] 1%N ["Transfer `MultiAsset`."%string; ""%string; "`dest_weight` is the weight for XCM execution on the dest chain, and"%string; "it would be charged from the transferred assets. If set below"%string; "requirements, the execution may fail and assets wouldn't be"%string; "received."%string; ""%string; "It's a no-op if any error on local XCM execution or message sending."%string; "Note sending assets out per se doesn't guarantee they would be"%string; "received. Receiving depends on if the XCM message could be delivered"%string; "by the network, and if the receiving chain would handle"%string; "messages correctly."%string]); (Variant "transfer_with_fee"%string [(Field (Some "currency_id"%string) 41%N (Some "T::CurrencyId"%string) []); (Field (Some "amount"%string) 6%N (Some "T::Balance"%string) []); (Field (Some "fee"%string) 6%N (Some "T::Balance"%string) []); (Field (Some "dest"%string) 98%N (Some "Box<VersionedMultiLocation>"%string) []); (Field (Some "dest_weight"%string) 8%N (Some "Weight"%string) [])] 2%N ["Transfer native currencies specifying the fee and amount as"%string; "separate."%string; ""%string; "`dest_weight` is the weight for XCM execution on the dest chain, and"%string; "it would be charged from the transferred assets. If set below"%string; "requirements, the execution may fail and assets wouldn't be"%string; "received."%string; ""%string; "`fee` is the amount to be spent to pay for execution in destination"%string; "chain. Both fee and amount will be subtracted form the callers"%string; "balance."%string; ""%string; "If `fee` is not high enough to cover for the execution costs in the"%string; "destination chain, then the assets will be trapped in the"%string; "destination chain"%string; ""%string; "It's a no-op if any error on local XCM execution or message sending."%string; "Note sending assets out per se doesn't guarantee they would be"%string; "received. Receiving depends on if the XCM message could be delivered"%string; "by the network, and if the receiving chain would handle"%string; "messages correctly."%string]); (Variant "transfer_multiasset_with_fee"%string [(Field (Some "asset"%string) 264%N (Some "Box<VersionedMultiAsset>"%string) []); (Field (Some "fee"%string) 264%N (Some "Box<VersionedMultiAsset>"%string) []); (Field (Some "dest"%string) 98%N (Some "Box<VersionedMultiLocation>"%string) []); (Field (Some "dest_weight"%string) 8%N (Some "Weight"%string) [])] 3%N ["Transfer `MultiAsset` specifying the fee and amount as separate."%string; ""%string; "`dest_weight` is the weight for XCM execution on the dest chain, and"%string; "it would be charged from the transferred assets. If set below"%string; "requirements, the execution may fail and assets wouldn't be"%string; "received."%string; ""%string; "`fee` is the multiasset to be spent to pay for execution in"%string; "destination chain. Both fee and amount will be subtracted form the"%string; "callers balance For now we only accept fee and asset having the same"%string; "`MultiLocation` id."%string; ""%string; "If `fee` is not high enough to cover for the execution costs in the"%string; "destination chain, then the assets will be trapped in the"%string; "destination chain"%string; ""%string; "It's a no-op if any error on local XCM execution or message sending."%string; "Note sending assets out per se doesn't guarantee they would be"%string; "received. Receiving depends on if the XCM message could be delivered"%string; "by the network, and if the receiving chain would handle"%string; "messages correctly."%string])]) ["Contains one variant per dispatchable that can be called by an extrinsic."%string]).
Definition md_t264 : ty := (Ty ["xcm"%string; "VersionedMultiAsset"%string] [] (TVariant [(Variant "V0"%string [(Field None 95%N (Some "v0::MultiAsset"%string) [])] 0%N []); (Variant "V1"%string [(Field None 77%N (Some "v1::MultiAsset"%string) [])] 1%N [])]) []).
Definition md_t265 : ty := (Ty ["orml_xcm"%string; "module"%string; "Call"%string] [("T"%string,None)] (TVariant [(Variant "send_as_sovereign"%string [(Field (Some "dest"%string) 98%N (Some "Box<VersionedMultiLocation>"%string) []); (Field (Some "message"%string) 237%N (Some "Box<VersionedXcm<()>>"%string) [])] 0%N ["Send an XCM message as parachain sovereign."%string])]) ["Contains one variant per dispatchable that can be called by an extrinsic."%string]).
Definition md_t266 : ty := (Ty ["orml_authority"%string; "module"%string; "Call"%string] [("T"%string,None)] (TVariant [(Variant "dispatch_as"%string [(Field (Some "as_origin"%string) 267%N (Some "T::AsOriginId"%string) []); (Field (Some "call"%string) 193%N (Some "Box<CallOf<T>>"%string) [])] 0%N ["Dispatch a dispatchable on behalf of other origin"%string]); (Variant "schedule_dispatch"%string [(Field (Some "when"%string) 268%N (Some "DispatchTime<T::BlockNumber>"%string) []); (Field (Some "priority"%string) 2%N (Some "Priority"%string) []); (Field (Some "with_delayed_origin"%string) 118%N (Some "bool"%string) []); (Field (Some "call"%string) 193%N (Some "Box<CallOf<T>>"%string) [])] 1%N ["Schedule a dispatchable to be dispatched at later block."%string; "This is the only way to dispatch a call with `DelayedOrigin`."%string]); (Variant "fast_track_scheduled_dispatch"%string [(Field (Some "initial_origin"%string) 105%N (Some "Box<T::PalletsOrigin>"%string) []); (Field (Some "task_id"%string) 4%N (Some "ScheduleTaskIndex"%string) []); (Field (Some "when"%string) 268%N (Some "DispatchTime<T::BlockNumber>"%string) [])] 2%N ["Fast track a scheduled dispatchable."%string]); (Variant "delay_scheduled_dispatch"%string [(Field (Some "initial_origin"%string) 105%N (Some "Box<T::PalletsOrigin>"%string) []); (Field (Some "task_id"%string) 4%N (Some "ScheduleTaskIndex"%string) []); (Field (Some "additional_delay"%string) 4%N (Some "T::BlockNumber"%string) [])] 3%N ["Delay a scheduled dispatchable."%string]); (Variant "cancel_scheduled_dispatch"%string [(Field (Some "initial_origin"%string) 105%N (Some "Box<T::PalletsOrigin>"%string) []); (Field (Some "task_id"%string) 4%N (Some "ScheduleTaskIndex"%string) [])] 4%N ["Cancel a scheduled dispatchable."%string]); (Variant "authorize_call"%string [(Field (Some "call"%string) 193%N (Some "Box<CallOf<T>>"%string) []); (Field (Some "caller"%string) 116%N (Some "Option<T::AccountId>"%string) [])] 5%N []); (Variant "remove_authorized_call"%string [(Field (Some "hash"%string) 9%N (Some "T::Hash"%string) [])] 6%N []); (Variant "trigger_call"%string [(Field (Some "hash"%string) 9%N (Some "T::Hash"%string) []); (Field (Some "call_weight_bound"%string) 69%N (Some "Weight"%string) [])] 7%N [])]) ["Contains one variant per dispatchable that can be called by an extrinsic."%string]).
Definition md_t267 : ty := (Ty ["acala_primitives"%string; "AuthoritysOriginId"%string] [] (TVariant [(Variant "Root"%string [] 0%N []); (Variant "Treasury"%string [] 1%N []); (Variant "HonzonTreasury"%string [] 2%N []); (Variant "HomaTreasury"%string [] 3%N []); (Variant "TreasuryReserve"%string [] 4%N [])]) []).
Definition md_t268 : ty := (Ty ["frame_support"%string; "traits"%string; "schedule"%string; "DispatchTime"%string] [("BlockNumber"%string,(Some 4%N))] (TVariant [(Variant "At"%string [(Field None 4%N (Some "BlockNumber"%string) [])] 0%N []); (Variant "After"%string [(Field None 4%N (Some "BlockNumber"%string) [])] 1%N [])]) []).
Definition md_t269 : ty := (Ty ["pallet_collective"%string; "pallet"%string; "Call"%string] [("T"%string,None); ("I"%string,None)] (TVariant [(Variant "set_members"%string [(Field (Some "new_members"%string) 56%N (Some "Vec<T::AccountId>"%string) []); (Field (Some "prime"%string) 116%N (Some "Option<T::AccountId>"%string) []); (Field (Some "old_count"%string) 4%N (Some "MemberCount"%string) [])] 0%N ["Set the collective's membership."%string; ""%string; "- `new_members`: The new member list. Be nice to the chain and provide it sorted."%string; "- `prime`: The prime member whose vote sets the default."%string; "- `old_count`: The upper bound for the previous number of members in storage. Used for"%string; "  weight estimation."%string; ""%string; "Requires root origin."%string; ""%string; "NOTE: Does not enforce the expected `MaxMembers` limit on the amount of members, but"%string; "      the weight estimations rely on it to estimate dispatchable weight."%string; ""%string; "# WARNING:"%string; ""%string; "The `pallet-collective` can also be managed by logic outside of the pallet through the"%string; "implementation of the trait [`ChangeMembers`]."%string; "Any call to `set_members` must be careful that the member set doesn't get out of sync"%string; "with other logic managing the member set."%string; ""%string; "# <weight>"%string; "## Weight"%string; "- `O(MP + N)` where:"%string; "  - `M` old-members-count (code- and governance-bounded)"%string; "  - `N` new-members-count (code- and governance-bounded)"%string; "  - `P` proposals-count (code-bounded)"%string; "- DB:"%string; "  - 1 storage mutation (codec `O(M)` read, `O(N)` write) for reading and writing the"%string; "    members"%string; "  - 1 storage read (codec `O(P)`) for reading the proposals"%string; "  - `P` storage mutations (codec `O(M)`) for updating the votes for each proposal"%string; "  - 1 storage write (codec `O(1)`) for deleting the old `prime` and setting the new one"%string; "# </weight>"%string]); (Variant "execute"%string [(Field (Some "proposal"%string) 193%N (Some "Box<<T as Config<I>>::Proposal>"%string) []); (Field (Some "length_bound"%string) 67%N (Some "u32"%string) [])] 1%N ["Dispatch a proposal from a member using the `Member` origin."%string; ""%string; "Origin must be a member of the collective."%string; ""%string; "# <weight>"%string; "## Weight"%string; "- `O(M + P)` where `M` members-count (code-bounded) and `P` complexity of dispatching"%string; "  `proposal`"%string; "- DB: 1 read (codec `O(M)`) + DB access of `proposal`"%string; "- 1 event"%string; "# </weight>"%string]); (Variant "propose"%string [(Field (Some "threshold"%string) 67%N (Some "MemberCount"%string) []); (Field (Some "proposal"%string) 193%N (Some "Box<<T as Config<I>>::Proposal>"%string) []); (Field (Some "length_bound"%string) 67%N (Some "u32"%string) [])] 2%N ["Add a new proposal to either be voted on or executed directly."%string; ""%string; "Requires the sender to be member."%string; ""%string; "`threshold` determines whether `proposal` is executed directly (`threshold < 2`)"%string; "or put up for voting."%string; ""%string; "# <weight>"%string; "## Weight"%string; "- `O(B + M + P1)` or `O(B + M + P2)` where:"%string; "  - `B` is `proposal` size in bytes (length-fee-bounded)"%string; "  - `M` is members-count (code- and governance-bounded)"%string; "  - branching is influenced by `threshold` where:"%string; "    - `P1` is proposal execution complexity (`threshold < 2`)"%string; "    - `P2` is proposals-count (code-bounded) (`threshold >= 2`)"%string; "- DB:"%string; "  - 1 storage read `is_member` (codec `O(M)`)"%string; "  - 1 storage read `ProposalOf::contains_key` (codec `O(1)`)"%string; "  - DB accesses influenced by `threshold`:"%string; "    - EITHER storage accesses done by `proposal` (`threshold < 2`)"%string; "    - OR proposal insertion (`threshold <= 2`)"%string; "      - 1 storage mutation `Proposals` (codec `O(P2)`)"%string; "      - 1 storage mutation `ProposalCount` (codec `O(1)`)"%string; "      - 1 storage write `ProposalOf` (codec `O(B)`)"%string; "      - 1 storage write `Voting` (codec `O(M)`)"%string; "  - 1 event"%string; "# </weight>"%string]); (Variant "vote"%string [(Field (Some "proposal"%string) 9%N (Some "T::Hash"%string) []); (Field (Some "index"%string) 67%N (Some "ProposalIndex"%string) []); (Field (Some "approve"%string) 118%N (Some "bool"%string) [])] 3%N ["Add an aye or nay vote for the sender to the given proposal."%string; ""%string; "Requires the sender to be a member."%string; ""%string; "Transaction fees will be waived if the member is voting on any particular proposal"%string; "for the first time and the call is successful. Subsequent vote changes will charge a"%string; "fee."%string; "# <weight>"%string; "## Weight"%string; "- `O(M)` where `M` is members-count (code- and governance-bounded)"%string; "- DB:"%string; "  - 1 storage read `Members` (codec `O(M)`)"%string; "  - 1 storage mutation `Voting` (codec `O(M)`)"%string; "- 1 event"%string; "# </weight>"%string]); (Variant "close"%string [(Field (Some "proposal_hash"%string) 9%N (Some "T::Hash"%string) []); (Field (Some "index"%string) 67%N (Some "ProposalIndex"%string) []); (Field (Some "proposal_weight_bound"%string) 69%N (Some "Weight"%string) []); (Field (Some "length_bound"%string) 67%N (Some "u32"%string) [])] 4%N ["Close a vote that is either approved, disapproved or whose voting period has ended."%string; ""%string; "May be called by any signed account in order to finish voting and close the proposal."%string; ""%string; "If called before the end of the voting period it will only close the vote if it is"%string; "has enough votes to be approved or disapproved."%string; ""%string; "If called after the end of the voting period abstentions are counted as rejections"%string; "unless there is a prime member set and the prime member cast an approval."%string; ""%string; "If the close operation completes successfully with disapproval, the transaction fee will"%string; "be waived. Otherwise execution of the approved operation will be charged to the caller."%string; ""%string; "+ `proposal_weight_bound`: The maximum amount of weight consumed by executing the closed"%string; "proposal."%string; "+ `length_bound`: The upper bound for the length of the proposal in storage. Checked via"%string; "`storage::read` so it is `size_of::<u32>() == 4` larger than the pure length."%string; ""%string; "# <weight>"%string; "## Weight"%string; "- `O(B + M + P1 + P2)` where:"%string; "  - `B` is `proposal` size in bytes (length-fee-bounded)"%string; "  - `M` is members-count (code- and governance-bounded)"%string; "  - `P1` is the complexity of `proposal` preimage."%string; "  - `P2` is proposal-count (code-bounded)"%string; "- DB:"%string; " - 2 storage reads (`Members`: codec `O(M)`, `Prime`: codec `O(1)`)"%string; " - 3 mutations (`Voting`: codec `O(M)`, `ProposalOf`: codec `O(B)`, `Proposals`: codec"%string; "   `O(P2)`)"%string; " - any mutations done while executing `proposal` (`P1`)"%string; "- up to 3 events"%string; "# </weight>"%string]); (Variant "disapprove_proposal"%string [(Field (Some "proposal_hash"%string) 9%N (Some "T::Hash"%string) [])] 5%N ["Disapprove a proposal, close, and remove it from the system, regardless of its current"%string; "state."%string; ""%string; "Must be called by the Root origin."%string; ""%string; "Parameters:"%string; "* `proposal_hash`: The hash of the proposal that should be disapproved."%string; ""%string; "# <weight>"%string; "Complexity: O(P) where P is the number of max proposals"%string; "DB Weight:"%string; "* Reads: Proposals"%string; "* Writes: Voting, Proposals, ProposalOf"%string; "# </weight>"%string])]) ["Contains one variant per dispatchable that can be called by an extrinsic."%string]).
Definition md_t270 : ty := (Ty ["pallet_membership"%string; "pallet"%string; "Call"%string] [("T"%string,None); ("I"%string,None)] (TVariant [(Variant "add_member"%string [(Field (Some "who"%string) 0%N (Some "T::AccountId"%string) [])] 0%N ["Add a member `who` to the set."%string; ""%string; "May only be called from `T::AddOrigin`."%string]); (Variant "remove_member"%string [(Field (Some "who"%string) 0%N (Some "T::AccountId"%string) [])] 1%N ["Remove a member `who` from the set."%string; ""%string; "May only be called from `T::RemoveOrigin`."%string]); (Variant "swap_member"%string [(Field (Some "remove"%string) 0%N (Some "T::AccountId"%string) []); (Field (Some "add"%string) 0%N (Some "T::AccountId"%string) [])] 2%N ["Swap out one member `remove` for another `add`."%string; ""%string; "May only be called from `T::SwapOrigin`."%string; ""%string; "Prime membership is *not* passed from `remove` to `add`, if extant."%string]); (Variant "reset_members"%string [(Field (Some "members"%string) 56%N (Some "Vec<T::AccountId>"%string) [])] 3%N ["Change the membership to a new set, disregarding the existing membership. Be nice and"%string; "pass `members` pre-sorted."%string; ""%string; "May only be called from `T::ResetOrigin`."%string]); (Variant "change_key"%string [(Field (Some "new"%string) 0%N (Some "T::AccountId"%string) [])] 4%N ["Swap out the sending member for some other key `new`."%string; ""%string; "May only be called from `Signed` origin of a current member."%string; ""%string; "Prime membership is passed from the origin account to `new`, if extant."%string]); (Variant "set_prime"%string [(Field (Some "who"%string) 0%N (Some "T::AccountId"%string) [])] 5%N ["Set the prime member. Must be a current member."%string; ""%string; "May only be called from `T::PrimeOrigin`."%string]); (Variant "clear_prime"%string [] 6%N ["Remove the prime member if it exists."%string; ""%string; "May only be called from `T::PrimeOrigin`."%string])]) ["Contains one variant per dispatchable that can be called by an extrinsic."%string]).
Definition md_t271 : ty := (Ty ["pallet_collective"%string; "pallet"%string; "Call"%string] [("T"%string,None); ("I"%string,None)] (TVariant [(Variant "set_members"%string [(Field (Some "new_members"%string) 56%N (Some "Vec<T::AccountId>"%string) []); (Field (Some "prime"%string) 116%N (Some "Option<T::AccountId>"%string) []); (Field (Some "old_count"%string) 4%N (Some "MemberCount"%string) [])] 0%N ["Set the collective's membership."%string; ""%string; "- `new_members`: The new member list. Be nice to the chain and provide it sorted."%string; "- `prime`: The prime member whose vote sets the default."%string; "- `old_count`: The upper bound for the previous number of members in storage. Used for"%string; "  weight estimation."%string; ""%string; "Requires root origin."%string; ""%string; "NOTE: Does not enforce the expected `MaxMembers` limit on the amount of members, but"%string; "      the weight estimations rely on it to estimate dispatchable weight."%string; ""%string; "# WARNING:"%string; ""%string; "The `pallet-collective` can also be managed by logic outside of the pallet through the"%string; "implementation of the trait [`ChangeMembers`]."%string; "Any call to `set_members` must be careful that the member set doesn't get out of sync"%string; "with other logic managing the member set."%string; ""%string; "# <weight>"%string; "## Weight"%string; "- `O(MP + N)` where:"%string; "  - `M` old-members-count (code- and governance-bounded)"%string; "  - `N` new-members-count (code- and governance-bounded)"%string; "  - `P` proposals-count (code-bounded)"%string; "- DB:"%string; "  - 1 storage mutation (codec `O(M)` read, `O(N)` write) for reading and writing the"%string; "    members"%string; "  - 1 storage read (codec `O(P)`) for reading the proposals"%string; "  - `P` storage mutations (codec `O(M)`) for updating the votes for each proposal"%string; "  - 1 storage write (codec `O(1)`) for deleting the old `prime` and setting the new one"%string; "# </weight>"%string]); (Variant "execute"%string [(Field (Some "proposal"%string) 193%N (Some "Box<<T as Config<I>>::Proposal>"%string) []); (Field (Some "length_bound"%string) 67%N (Some "u32"%string) [])] 1%N ["Dispatch a proposal from a member using the `Member` origin."%string; ""%string; "Origin must be a member of the collective."%string; ""%string; "# <weight>"%string; "## Weight"%string; "- `O(M + P)` where `M` members-count (code-bounded) and `P` complexity of dispatching"%string; "  `proposal`"%string; "- DB: 1 read (codec `O(M)`) + DB access of `proposal`"%string; "- 1 event"%string; "# </weight>"%string]); (Variant "propose"%string [(Field (Some "threshold"%string) 67%N (Some "MemberCount"%string) []); (Field (Some "proposal"%string) 193%N (Some "Box<<T as Config<I>>::Proposal>"%string) []); (Field (Some "length_bound"%string) 67%N (Some "u32"%string) [])] 2%N ["Add a new proposal to either be voted on or executed directly."%string; ""%string; "Requires the sender to be member."%string; ""%string; "`threshold` determines whether `proposal` is executed directly (`threshold < 2`)"%string; "or put up for voting."%string; ""%string; "# <weight>"%string; "## Weight"%string; "- `O(B + M + P1)` or `O(B + M + P2)` where:"%string; "  - `B` is `proposal` size in bytes (length-fee-bounded)"%string; "  - `M` is members-count (code- and governance-bounded)"%string; "  - branching is influenced by `threshold` where:"%string; "    - `P1` is proposal execution complexity (`threshold < 2`)"%string; "    - `P2` is proposals-count (code-bounded) (`threshold >= 2`)"%string; "- DB:"%string; "  - 1 storage read `is_member` (codec `O(M)`)"%string; "  - 1 storage read `ProposalOf::contains_key` (codec `O(1)`)"%string; "  - DB accesses influenced by `threshold`:"%string; "    - EITHER storage accesses done by `proposal` (`threshold < 2`)"%string; "    - OR proposal insertion (`threshold <= 2`)"%string; "      - 1 storage mutation `Proposals` (codec `O(P2)`)"%string; "      - 1 storage mutation `ProposalCount` (codec `O(1)`)"%string; "      - 1 storage write `ProposalOf` (codec `O(B)`)"%string; "      - 1 storage write `Voting` (codec `O(M)`)"%string; "  - 1 event"%string; "# </weight>"%string]); (Variant "vote"%string [(Field (Some "proposal"%string) 9%N (Some "T::Hash"%string) []); (Field (Some "index"%string) 67%N (Some "ProposalIndex"%string) []); (Field (Some "approve"%string) 118%N (Some "bool"%string) [])] 3%N ["Add an aye or nay vote for the sender to the given proposal."%string; ""%string; "Requires the sender to be a member."%string; ""%string; "Transaction fees will be waived if the member is voting on any particular proposal"%string; "for the first time and the call is successful. Subsequent vote changes will charge a"%string; "fee."%string; "# <weight>"%string; "## Weight"%string; "- `O(M)` where `M` is members-count (code- and governance-bounded)"%string; "- DB:"%string; "  - 1 storage read `Members` (codec `O(M)`)"%string; "  - 1 storage mutation `Voting` (codec `O(M)`)"%string; "- 1 event"%string; "# </weight>"%string]); (Variant "close"%string [(Field (Some "proposal_hash"%string) 9%N (Some "T::Hash"%string) []); (Field (Some "index"%string) 67%N (Some "ProposalIndex"%string) []); (Field (Some "proposal_weight_bound"%string) 69%N (Some "Weight"%string) []); (Field (Some "length_bound"%string) 67%N (Some "u32"%string) [])] 4%N ["Close a vote that is either approved, disapproved or whose voting period has ended."%string; ""%string; "May be called by any signed account in order to finish voting and close the proposal."%string; ""%string; "If called before the end of the voting period it will only close the vote if it is"%string; "has enough votes to be approved or disapproved."%string; ""%string; "If called after the end of the voting period abstentions are counted as rejections"%string; "unless there is a prime member set and the prime member cast an approval."%string; ""%string; "If the close operation completes successfully with disapproval, the transaction fee will"%string; "be waived. Otherwise execution of the approved operation will be charged to the caller."%string; ""%string; "+ `proposal_weight_bound`: The maximum amount of weight consumed by executing the closed"%string; "proposal."%string; "+ `length_bound`: The upper bound for the length of the proposal in storage. Checked via"%string; "`storage::read` so it is `size_of::<u32>() == 4` larger than the pure length."%string; ""%string; "# <weight>"%string; "## Weight"%string; "- `O(B + M + P1 + P2)` where:"%string; "  - `B` is `proposal` size in bytes (length-fee-bounded)"%string; "  - `M` is members-count (code- and governance-bounded)"%string; "  - `P1` is the complexity of `proposal` preimage."%string; "  - `P2` is proposal-count (code-bounded)"%string; "- DB:"%string; " - 2 storage reads (`Members`: codec `O(M)`, `Prime`: codec `O(1)`)"%string; " - 3 mutations (`Voting`: codec `O(M)`, `ProposalOf`: codec `O(B)`, `Proposals`: codec"%string; "   `O(P2)`)"%string; " - any mutations done while executing `proposal` (`P1`)"%string; "- up to 3 events"%string; "# </weight>"%string]); (Variant "disapprove_proposal"%string [(Field (Some "proposal_hash"%string) 9%N (Some "T::Hash"%string) [])] 5%N ["Disapprove a proposal, close, and remove it from the system, regardless of its current"%string; "state."%string; ""%string; "Must be called by the Root origin."%string; ""%string; "Parameters:"%string; "* `proposal_hash`: The hash of the proposal that should be disapproved."%string; ""%string; "# <weight>"%string; "Complexity: O(P) where P is the number of max proposals"%string; "DB Weight:"%string; "* Reads: Proposals"%string; "* Writes: Voting, Proposals, ProposalOf"%string; "# </weight>"%string])]) ["Contains one variant per dispatchable that can be called by an extrinsic."%string]).
Definition md_t272 : ty := (Ty ["pallet_membership"%string; "pallet"%string; "Call"%string] [("T"%string,None); ("I"%string,None)] (TVariant [(Variant "add_member"%string [(Field (Some "who"%string) 0%N (Some "T::AccountId"%string) [])] 0%N ["Add a member `who` to the set."%string; ""%string; "May only be called from `T::AddOrigin`."%string]); (Variant "remove_member"%string [(Field (Some "who"%string) 0%N (Some "T::AccountId"%string) [])] 1%N ["Remove a member `who` from the set."%string; ""%string; "May only be called from `T::RemoveOrigin`."%string]); (Variant "swap_member"%string [(Field (Some "remove"%string) 0%N (Some "T::AccountId"%string) []); (Field (Some "add"%string) 0%N (Some "T::AccountId"%string) [])] 2%N ["Swap out one member `remove` for another `add`."%string; ""%string; "May only be called from `T::SwapOrigin`."%string; ""%string; "Prime membership is *not* passed from `remove` to `add`, if extant."%string]); (Variant "reset_members"%string [(Field (Some "members"%string) 56%N (Some "Vec<T::AccountId>"%string) [])] 3%N ["Change the membership to a new set, disregarding the existing membership. Be nice and"%string; "pass `members` pre-sorted."%string; ""%string; "May only be called from `T::ResetOrigin`."%string]); (Variant "change_key"%string [(Field (Some "new"%string) 0%N (Some "T::AccountId"%string) [])] 4%N ["Swap out the sending member for some other key `new`."%string; ""%string; "May only be called from `Signed` origin of a current member."%string; ""%string; "Prime membership is passed from the origin account to `new`, if extant."%string]); (Variant "set_prime"%string [(Field (Some "who"%string) 0%N (Some "T::AccountId"%string) [])] 5%N ["Set the prime member. Must be a current member."%string; ""%string; "May only be called from `T::PrimeOrigin`."%string]); (Variant "clear_prime"%string [] 6%N ["Remove the prime member if it exists."%string; ""%string; "May only be called from `T::PrimeOrigin`."%string])]) ["Contains one variant per dispatchable that can be called by an extrinsic."%string]).
Definition md_t273 : ty := (Ty ["pallet_collective"%string; "pallet"%string; "Call"%string] [("T"%string,None); ("I"%string,None)] (TVariant [(Variant "set_members"%string [(Field (Some "new_members"%string) 56%N (Some "Vec<T::AccountId>"%string) []); (Field (Some "prime"%string) 116%N (Some "Option<T::AccountId>"%string) []); (Field (Some "old_count"%string) 4%N (Some "MemberCount"%string) [])] 0%N ["Set the collective's membership."%string; ""%string; "- `new_members`: The new member list. Be nice to the chain and provide it sorted."%string; "- `prime`: The prime member whose vote sets the default."%string; "- `old_count`: The upper bound for the previous number of members in storage. Used for"%string; "  weight estimation."%string; ""%string; "Requires root origin."%string; ""%string; "NOTE: Does not enforce the expected `MaxMembers` limit on the amount of members, but"%string; "      the weight estimations rely on it to estimate dispatchable weight."%string; ""%string; "# WARNING:"%string; ""%string; "The `pallet-collective` can also be managed by logic outside of the pallet through the"%string; "implementation of the trait [`ChangeMembers`]."%string; "Any call to `set_members` must be careful that the member set doesn't get out of sync"%string; "with other logic managing the member set."%string; ""%string; "# <weight>"%string; "## Weight"%string; "- `O(MP + N)` where:"%string; "  - `M` old-members-count (code- and governance-bounded)"%string; "  - `N` new-members-count (code- and governance-bounded)"%string; "  - `P` proposals-count (code-bounded)"%string; "- DB:"%string; "  - 1 storage mutation (codec `O(M)` read, `O(N)` write) for reading and writing the"%string; "    members"%string; "  - 1 storage read (codec `O(P)`) for reading the proposals"%string; "  - `P` storage mutations (codec `O(M)`) for updating the votes for each proposal"%string; "  - 1 storage write (codec `O(1)`) for deleting the old `prime` and setting the new one"%string; "# </weight>"%string]); (Variant "execute"%string [(Field (Some "proposal"%string) 193%N (Some "Box<<T as Config<I>>::Proposal>"%string) []); (Field (Some "length_bound"%string) 67%N (Some "u32"%string) [])] 1%N ["Dispatch a proposal from a member using the `Member` origin."%string; ""%string; "Origin must be a member of the collective."%string; ""%string; "# <weight>"%string; "## Weight"%string; "- `O(M + P)` where `M` members-count (code-bounded) and `P` complexity of dispatching"%string; "  `proposal`"%string; "- DB: 1 read (codec `O(M)`) + DB access of `proposal`"%string; "- 1 event"%string; "# </weight>"%string]); (Variant "propose"%string [(Field (Some "threshold"%string) 67%N (Some "MemberCount"%string) []); (Field (Some "proposal"%string) 193%N (Some "Box<<T as Config<I>>::Proposal>"%string) []); (Field (Some "length_bound"%string) 67%N (Some "u32"%string) [])] 2%N ["Add a new proposal to either be voted on or executed directly."%string; ""%string; "Requires the sender to be member."%string; ""%string; "`threshold` determines whether `proposal` is executed directly (`threshold < 2`)"%string; "or put up for voting."%string; ""%string; "# <weight>"%string; "## Weight"%string; "- `O(B + M + P1)` or `O(B + M + P2)` where:"%string; "  - `B` is `proposal` size in bytes (length-fee-bounded)"%string; "  - `M` is members-count (code- and governance-bounded)"%string; "  - branching is influenced by `threshold` where:"%string; "    - `P1` is proposal execution complexity (`threshold < 2`)"%string; "    - `P2` is proposals-count (code-bounded) (`threshold >= 2`)"%string; "- DB:"%string; "  - 1 storage read `is_member` (codec `O(M)`)"%string; "  - 1 storage read `ProposalOf::contains_key` (codec `O(1)`)"%string; "  - DB accesses influenced by `threshold`:"%string; "    - EITHER storage accesses done by `proposal` (`threshold < 2`)"%string; "    - OR proposal insertion (`threshold <= 2`)"%string; "      - 1 storage mutation `Proposals` (codec `O(P2)`)"%string; "      - 1 storage mutation `ProposalCount` (codec `O(1)`)"%string; "      - 1 storage write `ProposalOf` (codec `O(B)`)"%string; "      - 1 storage write `Voting` (codec `O(M)`)"%string; "  - 1 event"%string; "# </weight>"%string]); (Variant "vote"%string [(Field (Some "proposal"%string) 9%N (Some "T::Hash"%string) []); (Field (Some "index"%string) 67%N (Some "ProposalIndex"%string) []); (Field (Some "approve"%string) 118%N (Some "bool"%string) [])] 3%N ["Add an aye or nay vote for the sender to the given proposal."%string; ""%string; "Requires the sender to be a member."%string; ""%string; "Transaction fees will be waived if the member is voting on any particular proposal"%string; "for the first time and the call is successful. Subsequent vote changes will charge a"%string; "fee."%string; "# <weight>"%string; "## Weight"%string; "- `O(M)` where `M` is members-count (code- and governance-bounded)"%string; "- DB:"%string; "  - 1 storage read `Members` (codec `O(M)`)"%string; "  - 1 storage mutation `Voting` (codec `O(M)`)"%string; "- 1 event"%string; "# </weight>"%string]); (Variant "close"%string [(Field (Some "proposal_hash"%string) 9%N (Some "T::Hash"%string) []); (Field (Some "index"%string) 67%N (Some "ProposalIndex"%string) []); (Field (Some "proposal_weight_bound"%string) 69%N (Some "Weight"%string) []); (Field (Some "length_bound"%string) 67%N (Some "u32"%string) [])] 4%N ["Close a vote that is either approved, disapproved or whose voting period has ended."%string; ""%string; "May be called by any signed account in order to finish voting and close the proposal."%string; ""%string; "If called before the end of the voting period it will only close the vote if it is"%string; "has enough votes to be approved or disapproved."%string; ""%string; "If called after the end of the voting period abstentions are counted as rejections"%string; "unless there is a prime member set and the prime member cast an approval."%string; ""%string; "If the close operation completes successfully with disapproval, the transaction fee will"%string; "be waived. Otherwise execution of the approved operation will be charged to the caller."%string; ""%string; "+ `proposal_weight_bound`: The maximum amount of weight consumed by executing the closed"%string; "proposal."%string; "+ `length_bound`: The upper bound for the length of the proposal in storage. Checked via"%string; "`storage::read` so it is `size_of::<u32>() == 4` larger than the pure length."%string; ""%string; "# <weight>"%string; "## Weight"%string; "- `O(B + M + P1 + P2)` where:"%string; "  - `B` is `proposal` size in bytes (length-fee-bounded)"%string; "  - `M` is members-count (code- and governance-bounded)"%string; "  - `P1` is the complexity of `proposal` preimage."%string; "  - `P2` is proposal-count (code-bounded)"%string; "- DB:"%string; " - 2 storage reads (`Members`: codec `O(M)`, `Prime`: codec `O(1)`)"%string; " - 3 mutations (`Voting`: codec `O(M)`, `ProposalOf`: codec `O(B)`, `Proposals`: codec"%string; "   `O(P2)`)"%string; " - any mutations done while executing `proposal` (`P1`)"%string; "- up to 3 events"%string; "# </weight>"%string]); (Variant "disapprove_proposal"%string [(Field (Some "proposal_hash"%string) 9%N (Some "T::Hash"%string) [])] 5%N ["Disapprove a proposal, close, and remove it from the system, regardless of its current"%string; "state."%string; ""%string; "Must be called by the Root origin."%string; ""%string; "Parameters:"%string; "* `proposal_hash`: The hash of the proposal that should be disapproved."%string; ""%string; "# <weight>"%string; "Complexity: O(P) where P is the number of max proposals"%string; "DB Weight:"%string; "* Reads: Proposals"%string; "* Writes: Voting, Proposals, ProposalOf"%string; "# </weight>"%string])]) ["Contains one variant per dispatchable that can be called by an extrinsic."%string]).
Definition md_t274 : ty := (Ty ["pallet_membership"%string; "pallet"%string; "Call"%string] [("T"%string,None); ("I"%string,None)] (TVariant [(Variant "add_member"%string [(Field (Some "who"%string) 0%N (Some "T::AccountId"%string) [])] 0%N ["Add a member `who` to the set."%string; ""%string; "May only be called from `T::AddOrigin`."%string]); (Variant "remove_member"%string [(Field (Some "who"%string) 0%N (Some "T::AccountId"%string) [])] 1%N ["Remove a member `who` from the set."%string; ""%string; "May only be called from `T::RemoveOrigin`."%string]); (Variant "swap_member"%string [(Field (Some "remove"%string) 0%N (Some "T::AccountId"%string) []); (Field (Some "add"%string) 0%N (Some "T::AccountId"%string) [])] 2%N ["Swap out one member `remove` for another `add`."%string; ""%string; "May only be called from `T::SwapOrigin`."%string; ""%string; "Prime membership is *not* passed from `remove` to `add`, if extant."%string]); (Variant "reset_members"%string [(Field (Some "members"%string) 56%N (Some "Vec<T::AccountId>"%string) [])] 3%N ["Change the membership to a new set, disregarding the existing membership. Be nice and"%string; "pass `members` pre-sorted."%string; ""%string; "May only be called from `T::ResetOrigin`."%string]); (Variant "change_key"%string [(Field (Some "new"%string) 0%N (Some "T::AccountId"%string) [])] 4%N ["Swap out the sending member for some other key `new`."%string; ""%string; "May only be called from `Signed` origin of a current member."%string; ""%string; "Prime membership is passed from the origin account to `new`, if extant."%string]); (Variant "set_prime"%string [(Field (Some "who"%string) 0%N (Some "T::AccountId"%string) [])] 5%N ["Set the prime member. Must be a current member."%string; ""%string; "May only be called from `T::PrimeOrigin`."%string]); (Variant "clear_prime"%string [] 6%N ["Remove the prime member if it exists."%string; ""%string; "May only be called from `T::PrimeOrigin`."%string])]) ["Contains one variant per dispatchable that can be called by an extrinsic."%string]).
Definition md_t275 : ty := (Ty ["pallet_collective"%string; "pallet"%string; "Call"%string] [("T"%string,None); ("I"%string,None)] (TVariant [(Variant "set_members"%string [(Field (Some "new_members"%string) 56%N (Some "Vec<T::AccountId>"%string) []); (Field (Some "prime"%string) 116%N (Some "Option<T::AccountId>"%string) []); (Field (Some "old_count"%string) 4%N (Some "MemberCount"%string) [])] 0%N ["Set the collective's membership."%string; ""%string; "- `new_members`: The new member list. Be nice to the chain and provide it sorted."%string; "- `prime`: The prime member whose vote sets the default."%string; "- `old_count`: The upper bound for the previous number of members in storage. Used for"%string; "  weight estimation."%string; ""%string; "Requires root origin."%string; ""%string; "NOTE: Does not enforce the expected `MaxMembers` limit on the amount of members, but"%string; "      the weight estimations rely on it to estimate dispatchable weight."%string; ""%string; "# WARNING:"%string; ""%string; "The `pallet-collective` can also be managed by logic outside of the pallet through the"%string; "implementation of the trait [`ChangeMembers`]."%string; "Any call to `set_members` must be careful that the member set doesn't get out of sync"%string; "with other logic managing the member set."%string; ""%string; "# <weight>"%string; "## Weight"%string; "- `O(MP + N)` where:"%string; "  - `M` old-members-count (code- and governance-bounded)"%string; "  - `N` new-members-count (code- and governance-bounded)"%string; "  - `P` proposals-count (code-bounded)"%string; "- DB:"%string; "  - 1 storage mutation (codec `O(M)` read, `O(N)` write) for reading and writing the"%string; "    members"%string; "  - 1 storage read (codec `O(P)`) for reading the proposals"%string; "  - `P` storage mutations (codec `O(M)`) for updating the votes for each proposal"%string; "  - 1 storage write (codec `O(1)`) for deleting the old `prime` and setting the new one"%string; "# </weight>"%string]); (Variant "execute"%string [(Field (Some "proposal"%string) 193%N (Some "Box<<T as Config<I>>::Proposal>"%string) []); (Field (Some "length_bound"%string) 67%N (Some "u32"%string) [])] 1%N ["Dispatch a proposal from a member using the `Member` origin."%string; ""%string; "Origin must be a member of the collective."%string; ""%string; "# <weight>"%string; "## Weight"%string; "- `O(M + P)` where `M` members-count (code-bounded) and `P` complexity of dispatching"%string; "  `proposal`"%string; "- DB: 1 read (codec `O(M)`) + DB access of `proposal`"%string; "- 1 event"%string; "# </weight>"%string]); (Variant "propose"%string [(Field (Some "threshold"%string) 67%N (Some "MemberCount"%string) []); (Field (Some "proposal"%string) 193%N (Some "Box<<T as Config<I>>::Proposal>"%string) []); (Field (Some "length_bound"%string) 67%N (Some "u32"%string) [])] 2%N ["Add a new proposal to either be voted on or executed directly."%string; ""%string; "Requires the sender to be member."%string; ""%string; "`threshold` determines whether `proposal` is executed directly (`threshold < 2`)"%string; "or put up for voting."%string; ""%string; "# <weight>"%string; "## Weight"%string; "- `O(B + M + P1)` or `O(B + M + P2)` where:"%string; "  - `B` is `proposal` size in bytes (length-fee-bounded)"%string; "  - `M` is members-count (code- and governance-bounded)"%string; "  - branching is influenced by `threshold` where:"%string; "    - `P1` is proposal execution complexity (`threshold < 2`)"%string; "    - `P2` is proposals-count (code-bounded) (`threshold >= 2`)"%string; "- DB:"%string; "  - 1 storage read `is_member` (codec `O(M)`)"%string; "  - 1 storage read `ProposalOf::contains_key` (codec `O(1)`)"%string; "  - DB accesses influenced by `threshold`:"%string; "    - EITHER storage accesses done by `proposal` (`threshold < 2`)"%string; "    - OR proposal insertion (`threshold <= 2`)"%string; "      - 1 storage mutation `Proposals` (codec `O(P2)`)"%string; "      - 1 storage mutation `ProposalCount` (codec `O(1)`)"%string; "      - 1 storage write `ProposalOf` (codec `O(B)`)"%string; "      - 1 storage write `Voting` (codec `O(M)`)"%string; "  - 1 event"%string; "# </weight>"%string]); (Variant "vote"%string [(Field (Some "proposal"%string) 9%N (Some "T::Hash"%string) []); (Field (Some "index"%string) 67%N (Some "ProposalIndex"%string) []); (Field (Some "approve"%string) 118%N (Some "bool"%string) [])] 3%N ["Add an aye or nay vote for the sender to the given proposal."%string; ""%string; "Requires the sender to be a member."%string; ""%string; "Transaction fees will be waived if the member is voting on any particular proposal"%string; "for the first time and the call is successful. Subsequent vote changes will charge a"%string; "fee."%string; "# <weight>"%string; "## Weight"%string; "- `O(M)` where `M` is members-count (code- and governance-bounded)"%string; "- DB:"%string; "  - 1 storage read `Members` (codec `O(M)`)"%string; "  - 1 storage mutation `Voting` (codec `O(M)`)"%string; "- 1 event"%string; "# </weight>"%string]); (Variant "close"%string [(Field (Some "proposal_hash"%string) 9%N (Some "T::Hash"%string) []); (Field (Some "index"%string) 67%N (Some "ProposalIndex"%string) []); (Field (Some "proposal_weight_bound"%string) 69%N (Some "Weight"%string) []); (Field (Some "length_bound"%string) 67%N (Some "u32"%string) [])] 4%N ["Close a vote that is either approved, disapproved or whose voting period has ended."%string; ""%string; "May be called by any signed account in order to finish voting and close the proposal."%string; ""%string; "If called before the end of the voting period it will only close the vote if it is"%string; "has enough votes to be approved or disapproved."%string; ""%string; "If called after the end of the voting period abstentions are counted as rejections"%string; "unless there is a prime member set and the prime member cast an approval."%string; ""%string; "If the close operation completes successfully with disapproval, the transaction fee will"%string; "be waived. Otherwise execution of the approved operation will be charged to the caller."%string; ""%string; "+ `proposal_weight_bound`: The maximum amount of weight consumed by executing the closed"%string; "proposal."%string; "+ `length_bound`: The upper bound for the length of the proposal in storage. Checked via"%string; "`storage::read` so it is `size_of::<u32>() == 4` larger than the pure length."%string; ""%string; "# <weight>"%string; "## Weight"%string; "- `O(B + M + P1 + P2)` where:"%string; "  - `B` is `proposal` size in bytes (length-fee-bounded)"%string; "  - `M` is members-count (code- and governance-bounded)"%string; "  - `P1` is the complexity of `proposal` preimage."%string; "  - `P2` is proposal-count (code-bounded)"%string; "- DB:"%string; " - 2 storage reads (`Members`: codec `O(M)`, `Prime`: codec `O(1)`)"%string; " - 3 mutations (`Voting`: codec `O(M)`, `ProposalOf`: codec `O(B)`, `Proposals`: codec"%string; "   `O(P2)`)"%string; " - any mutations done while executing `proposal` (`P1`)"%string; "- up to 3 events"%string; "# </weight>"%string]); (Variant "disapprove_proposal"%string [(Field (Some "proposal_hash"%string) 9%N (Some "T::Hash"%string) [])] 5%N ["Disapprove a proposal, close, and remove it from the system, regardless of its current"%string; "state."%string; ""%string; "Must be called by the Root origin."%string; ""%string; "Parameters:"%string; "* `proposal_hash`: The hash of the proposal that should be disapproved."%string; ""%string; "# <weight>"%string; "Complexity: O(P) where P is the number of max proposals"%string; "DB Weight:"%string; "* Reads: Proposals"%string; "* Writes: Voting, Proposals, ProposalOf"%string; "# </weight>"%string])]) ["Contains one variant per dispatchable that can be called by an extrinsic."%string]).
Definition md_t276 : ty := (Ty ["pallet_membership"%string; "pallet"%string; "Call"%string] [("T"%string,None); ("I"%string,None)] (TVariant [(Variant "add_member"%string [(Field (Some "who"%string) 0%N (Some "T::AccountId"%string) [])] 0%N ["Add a member `who` to the set."%string; ""%string; "May only be called from `T::AddOrigin`."%string]); (Variant "remove_member"%string [(Field (Some "who"%string) 0%N (Some "T::AccountId"%string) [])] 1%N ["Remove a member `who` from the set."%string; ""%string; "May only be called from `T::RemoveOrigin`."%string]); (Variant "swap_member"%string [(Field (Some "remove"%string) 0%N (Some "T::AccountId"%string) []); (Field (Some "add"%string) 0%N (Some "T::AccountId"%string) [])] 2%N ["Swap out one member `remove` for another `add`."%string; ""%string; "May only be called from `T::SwapOrigin`."%string; ""%string; "Prime membership is *not* passed from `remove` to `add`, if extant."%string]); (Variant "reset_members"%string [(Field (Some "members"%string) 56%N (Some "Vec<T::AccountId>"%string) [])] 3%N ["Change the membership to a new set, disregarding the existing membership. Be nice and"%string; "pass `members` pre-sorted."%string; ""%string; "May only be called from `T::ResetOrigin`."%string]); (Variant "change_key"%string [(Field (Some "new"%string) 0%N (Some "T::AccountId"%string) [])] 4%N ["Swap out the sending member for some other key `new`."%string; ""%string; "May only be called from `Signed` origin of a current member."%string; ""%string; "Prime membership is passed from the origin account to `new`, if extant."%string]); (Variant "set_prime"%string [(Field (Some "who"%string) 0%N (Some "T::AccountId"%string) [])] 5%N ["Set the prime member. Must be a current member."%string; ""%string; "May only be called from `T::PrimeOrigin`."%string]); (Variant "clear_prime"%string [] 6%N ["Remove the prime member if it exists."%string; ""%string; "May only be called from `T::PrimeOrigin`."%string])]) ["Contains one variant per dispatchable that can be called by an extrinsic."%string]).
Definition md_t277 : ty := (Ty ["pallet_democracy"%string; "pallet"%string; "Call"%string] [("T"%string,None)] (TVariant [(Variant "propose"%string [(Field (Some "proposal_hash"%string) 9%N (Some "T::Hash"%string) []); (Field (Some "value"%string) 50%N (Some "BalanceOf<T>"%string) [])] 0%N ["Propose a sensitive action to be taken."%string; ""%string; "The dispatch origin of this call must be _Signed_ and the sender must"%string; "have funds to cover the deposit."%string; ""%string; "- `proposal_hash`: The hash of the proposal preimage."%string; "- `value`: The amount of deposit (must be at least `MinimumDeposit`)."%string; ""%string; "Emits `Proposed`."%string; ""%string; "Weight: `O(p)`"%string]); (Variant "second"%string [(Field (Some "proposal"%string) 67%N (Some "PropIndex"%string) []); (Field (Some "seconds_upper_bound"%string) 67%N (Some "u32"%string) [])] 1%N ["Signals agreement with a particular proposal."%string; ""%string; "The dispatch origin of this call must be _Signed_ and the sender"%string; "must have funds to cover the deposit, equal to the original deposit."%string; ""%string; "- `proposal`: The index of the proposal to second."%string; "- `seconds_upper_bound`: an upper bound on the current number of seconds on this"%string; "  proposal. Extrinsic is weighted according to this value with no refund."%string; ""%string; "Weight: `O(S)` where S is the number of seconds a proposal already has."%string]); (Variant "vote"%string [(Field (Some "ref_index"%string) 67%N (Some "ReferendumIndex"%string) []); (Field (Some "vote"%string) 278%N (Some "AccountVote<BalanceOf<T>>"%string) [])] 2%N ["Vote in a referendum. If `vote.is_aye()`, the vote is to enact the proposal;"%string; "otherwise it is a vote to keep the status quo."%string; ""%string; "The dispatch origin of this call must be _Signed_."%string; ""%string; "- `ref_index`: The index of the referendum to vote for."%string; "- `vote`: The vote configuration."%string; ""%string; "Weight: `O(R)` where R is the number of referendums the voter has voted on."%string]); (Variant "emergency_cancel"%string [(Field (Some "ref_index"%string) 4%N (Some "ReferendumIndex"%string) [])] 3%N ["Schedule an emergency cancellation of a referendum. Cannot happen twice to the same"%string; "referendum."%string; ""%string; "The dispatch origin of this call must be `CancellationOrigin`."%string; ""%string; "-`ref_index`: The index of the referendum to cancel."%string; ""%string; "Weight: `O(1)`."%string]); (Variant "external_propose"%string [(Field (Some "proposal_hash"%string) 9%N (Some "T::Hash"%string) [])] 4%N ["Schedule a referendum to be tabled once it is legal to schedule an external"%string; "referendum."%string; ""%string; "The dispatch origin of this call must be `ExternalOrigin`."%string; ""%string; "- `proposal_hash`: The preimage hash of the proposal."%string; ""%string; "Weight: `O(V)` with V number of vetoers in the blacklist of proposal."%string; "  Decoding vec of length V. Charged as maximum"%string]); (Variant "external_propose_majority"%string [(Field (Some "proposal_hash"%string) 9%N (Some "T::Hash"%string) [])] 5%N ["Schedule a majority-carries referendum to be tabled next once it is legal to schedule"%string; "an external referendum."%string; ""%string; "The dispatch of this call must be `ExternalMajorityOrigin`."%string; ""%string; "- `proposal_hash`: The preimage hash of the proposal."%string; ""%string; "Unlike `external_propose`, blacklisting has no effect on this and it may replace a"%string; "pre-scheduled `external_propose` call."%string; ""%string; "Weight: `O(1)`"%string]); (Variant "external_propose_default"%string [(Field (Some "proposal_hash"%string) 9%N (Some "T::Hash"%string) [])] 6%N ["Schedule a negative-turnout-bias referendum to be tabled next once it is legal to"%string; "schedule an external referendum."%string; ""%string; "The dispatch of this call must be `ExternalDefaultOrigin`."%string; ""%string; "- `proposal_hash`: The preimage hash of the proposal."%string; ""%string; "Unlike `external_propose`, blacklisting has no effect on this and it may replace a"%string; "pre-scheduled `external_propose` call."%string; ""%string; "Weight: `O(1)`"%string]); (Variant "fast_track"%string [(Field (Some "proposal_hash"%string) 9%N (Some "T::Hash"%string) []); (Field (Some "voting_period"%string) 4%N (Some "T::BlockNumber"%string) []); (Field (Some "delay"%string) 4%N (Some "T::BlockNumber"%string) [])] 7%N ["Schedule the currently externally-proposed majority-carries referendum to be tabled"%string; "immediately. If there is no externally-proposed referendum currently, or if there is one"%string; "but it is not a majority-carries referendum then it fails."%string; ""%string; "The dispatch of this call must be `FastTrackOrigin`."%string; ""%string; "- `proposal_hash`: The hash of the current external proposal."%string; "- `voting_period`: The period that is allowed for voting on this proposal. Increased to"%string; "  `FastTrackVotingPeriod` if too low."%string; "- `delay`: The number of block after voting has ended in approval and this should be"%string; "  enacted. This doesn't have a minimum amount."%string; ""%string; "Emits `Started`."%string; ""%string; "Weight: `O(1)`"%string]); (Variant "veto_external"%string [(Field (Some "proposal_hash"%string) 9%N (Some "T::Hash"%string) [])] 8%N ["Veto and blacklist the external proposal hash."%string; ""%string; "The dispatch origin of this call must be `VetoOrigin`."%string; ""%string; "- `proposal_hash`: The preimage hash of the proposal to veto and blacklist."%string; ""%string; "Emits `Vetoed`."%string; ""%string; "Weight: `O(V + log(V))` where V is number of `existing vetoers`"%string]); (Variant "cancel_referendum"%string [(Field (Some "ref_index"%string) 67%N (Some "ReferendumIndex"%string) [])] 9%N ["Remove a referendum."%string; ""%string; "The dispatch origin of this call must be _Root_."%string; ""%string; "- `ref_index`: The index of the referendum to cancel."%string; ""%string; "# Weight: `O(1)`."%string]); (Variant "cancel_queued"%string [(Field (Some "which"%string) 4%N (Some "ReferendumIndex"%string) [])] 10%N ["Cancel a proposal queued for enactment."%string; ""%string; "The dispatch origin of this call must be _Root_."%string; ""%string; "- `which`: The index of the referendum to cancel."%string; ""%string; "Weight: `O(D)` where `D` is the items in the dispatch queue. Weighted as `D = 10`."%string]); (Variant "delegate"%string [(Field (Some "to"%string) 0%N (Some "T::AccountId"%string) []); (Field (Some "conviction"%string) 280%N (Some "Conviction"%string) []); (Field (Some "balance"%string) 6%N (Some "BalanceOf<T>"%string) [])] 11%N ["Delegate the voting power (with some given conviction) of the sending account."%string; ""%string; "The balance delegated is locked for as long as it's delegated, and thereafter for the"%string; "time appropriate for the conviction's lock period."%string; ""%string; "The dispatch origin of this call must be _Signed_, and the signing account must either:"%string; "  - be delegating already; or"%string; "  - have no voting activity (if there is, then it will need to be removed/consolidated"%string; "    through `reap_vote` or `unvote`)."%string; ""%string; "- `to`: The account whose voting the `target` account's voting power will follow."%string; "- `conviction`: The conviction that will be attached to the delegated votes. When the"%string; "  account is undelegated, the funds will be locked for the corresponding period."%string; "- `balance`: The amount of the account's balance to be used in delegating. This must not"%string; "  be more than the account's current balance."%string; ""%string; "Emits `Delegated`."%string; ""%string; "Weight: `O(R)` where R is the number of referendums the voter delegating to has"%string; "  voted on. Weight is charged as if maximum votes."%string]); (Variant "undelegate"%string [] 12%N ["Undelegate the voting power of the sending account."%string; ""%string; "Tokens may be unlocked following once an amount of time consistent with the lock period"%string; "of the conviction with which the delegation was issued."%string; ""%string; "The dispatch origin of this call must be _Signed_ and the signing account must be"%string; "currently delegating."%string; ""%string; "Emits `Undelegated`."%string; ""%string; "Weight: `O(R)` where R is the number of referendums the voter delegating to has"%string; "  voted on. Weight is charged as if maximum votes."%string]); (Variant "clear_public_proposals"%string [] 13%N ["Clears all public proposals."%string; ""%string; "The dispatch origin of this call must be _Root_."%string; ""%string; "Weight: `O(1)`."%string]); (Variant "note_preimage"%string [(Field (Some "encoded_proposal"%string) 10%N (Some "Vec<u8>"%string) [])] 14%N ["Register the preimage for an upcoming proposal. This doesn't require the proposal to be"%string; "in the dispatch queue but does require a deposit, returned once enacted."%string; ""%string; "The dispatch origin of this call must be _Signed_."%string; ""%string; "- `encoded_proposal`: The preimage of a proposal."%string; ""%string; "Emits `PreimageNoted`."%string; ""%string; "Weight: `O(E)` with E size of `encoded_proposal` (protected by a required deposit)."%string]); (Variant "note_preimage_operational"%string [(Field (Some "encoded_proposal"%string) 10%N (Some "Vec<u8>"%string) [])] 15%N ["Same as `note_preimage` but origin is `OperationalPreimageOrigin`."%string]); (Variant "note_imminent_preimage"%string [(Field (Some "encoded_proposal"%string) 10%N (Some "Vec<u8>"%string) [])] 16%N ["Register the preimage for an upcoming proposal. This requires the proposal to be"%string; "in the dispatch queue. No deposit is needed. When this call is successful, i.e."%string; "the preimage has not been uploaded before and matches some imminent proposal,"%string; "no fee is paid."%string; ""%string; "The dispatch origin of this call must be _Signed_."%string; ""%string; "- `encoded_proposal`: The preimage of a proposal."%string; ""%string; "Emits `PreimageNoted`."%string; ""%string; "Weight: `O(E)` with E size of `encoded_proposal` (protected by a required deposit)."%string]); (Variant "note_imminent_preimage_operational"%string [(Field (Some "encoded_proposal"%string) 10%N (Some "Vec<u8>"%string) [])] 17%N ["Same as `note_imminent_preimage` but origin is `OperationalPreimageOrigin`."%string]); (Variant "reap_preimage"%string [(Field (Some "proposal_hash"%string) 9%N (Some "T::Hash"%string) []); (Field (Some "proposal_len_upper_bound"%string) 67%N (Some "u32"%string) [])] 18%N ["Remove an expired proposal preimage and collect the deposit."%string; ""%string; "The dispatch origin of this call must be _Signed_."%string; ""%string; "- `proposal_hash`: The preimage hash of a proposal."%string; "- `proposal_length_upper_bound`: an upper bound on length of the proposal. Extrinsic is"%string; "  weighted according to this value with no refund."%string; ""%string; "This will only work after `VotingPeriod` blocks from the time that the preimage was"%string; "noted, if it's the same account doing it. If it's a different account, then it'll only"%string; "work an additional `EnactmentPeriod` later."%string; ""%string; "Emits `PreimageReaped`."%string; ""%string; "Weight: `O(D)` where D is length of proposal."%string]); (Variant "unlock"%string [(Field (Some "target"%string) 0%N (Some "T::AccountId"%string) [])] 19%N ["Unlock tokens that have an expired lock."%string; ""%string; "The dispatch origin of this call must be _Signed_."%string; ""%string; "- `target`: The account to remove the lock on."%string; ""%string; "Weight: `O(R)` with R number of vote of target."%string]); (Variant "remove_vote"%string [(Field (Some "index"%string) 4%N (Some "ReferendumIndex"%string) [])] 20%N ["Remove a vote for a referendum."%string; ""%string; "If:"%string; "- the referendum was cancelled, or"%string; "- the referendum is ongoing, or"%string; "- the referendum has ended such that"%string; "  - the vote of the account was in opposition to the result; or"%string; "  - there was no conviction to the account's vote; or"%string; "  - the account made a split vote"%string; "...then the vote is removed cleanly and a following call to `unlock` may result in more"%string; "funds being available."%string; ""%string; "If, however, the referendum has ended and:"%string; "- it finished corresponding to the vote of the account, and"%string; "- the account made a standard vote with conviction, and"%string; "- the lock period of the conviction is not over"%string; "...then the lock will be aggregated into the overall account's lock, which may involve"%string; "*overlocking* (where the two locks are combined into a single lock that is the maximum"%string; "of both the amount locked and the time is it locked for)."%string; ""%string; "The dispatch origin of this call must be _Signed_, and the signer must have a vote"%string; "registered for referendum `index`."%string; ""%string; "- `index`: The index of referendum of the vote to be removed."%string; ""%string; "Weight: `O(R + log R)` where R is the number of referenda that `target` has voted on."%string; "  Weight is calculated for the maximum number of vote."%string]); (Variant "remove_other_vote"%string [(Field (Some "target"%string) 0%N (Some "T::AccountId"%string) []); (Field (Some "index"%string) 4%N (Some "ReferendumIndex"%string) [])] 21%N ["Remove a vote for a referendum."%string; ""%string; "If the `target` is equal to the signer, then this function is exactly equivalent to"%string; "`remove_vote`. If not equal to the signer, then the vote must have expired,"%string; "either because the referendum was cancelled, because the voter lost the referendum or"%string; "because the conviction period is over."%string; ""%string; "The dispatch origin of this call must be _Signed_."%string; ""%string; "- `target`: The account of the vote to be removed; this account must have voted for"%string; "  referendum `index`."%string; "- `index`: The index of referendum of the vote to be removed."%string; ""%string; "Weight: `O(R + log R)` where R is the number of referenda that `target` has voted on."%string; "  Weight is calculated for the maximum number of vote."%string]); (Variant "enact_proposal"%string [(Field (Some "proposal_hash"%string) 9%N (Some "T::Hash"%string) []); (Field (Some "index"%string) 4%N (Some "ReferendumIndex"%string) [])] 22%N ["Enact a proposal from a referendum. For now we just make the weight be the maximum."%string]); (Variant "blacklist"%string [(Field (Some "proposal_hash"%string) 9%N (Some "T::Hash"%string) []); (Field (Some "maybe_ref_index"%string) 261%N (Some "Option<ReferendumIndex>"%string) [])] 23%N ["Permanently place a proposal into the blacklist. This prevents it from ever being"%string; "proposed again."%string; ""%string; "If called on a queued public or external proposal, then this will result in it being"%string; "removed. If the `ref_index` supplied is an active referendum with the proposal hash,"%string; "then it will be cancelled."%string; ""%string; "The dispatch origin of this call must be `BlacklistOrigin`."%string; ""%string; "- `proposal_hash`: The proposal hash to blacklist permanently."%string; "- `ref_index`: An ongoing referendum whose hash is `proposal_hash`, which will be"%string; "cancelled."%string; ""%string; "Weight: `O(p)` (though as this is an high-privilege dispatch, we assume it has a"%string; "  reasonable value)."%string]); (Variant "cancel_proposal"%string [(Field (Some "prop_index"%string) 67%N (Some "PropIndex"%string) [])] 24%N ["Remove a proposal."%string; ""%string; "The dispatch origin of this call must be `CancelProposalOrigin`."%string; ""%string; "- `prop_index`: The index of the proposal to cancel."%string; ""%string; "Weight: `O(p)` where `p = PublicProps::<T>::decode_len()`"%string])]) ["Contains one variant per dispatchable that can be called by an extrinsic."%string]).
Definition md_t278 : ty := (Ty ["pallet_democracy"%string; "vote"%string; "AccountVote"%string] [("Balance"%string,(Some 6%N))] (TVariant [(Variant "Standard"%string [(Field (Some "vote"%string) 279%N (Some "Vote"%string) []); (Field (Some "balance"%string) 6%N (Some "Balance"%string) [])] 0%N []); (Variant "Split"%string [(Field (Some "aye"%string) 6%N (Some "Balance"%string) []); (Field (Some "nay"%string) 6%N (Some "Balance"%string) [])] 1%N [])]) []).
Definition md_t279 : ty := (Ty ["pallet_democracy"%string; "vote"%string; "Vote"%string] [] (TComposite [(Field None 2%N None [])]) []).
Definition md_t280 : ty := (Ty ["pallet_democracy"%string; "conviction"%string; "Conviction"%string] [] (TVariant [(Variant "None"%string [] 0%N []); (Variant "Locked1x"%string [] 1%N []); (Variant "Locked2x"%string [] 2%N []); (Variant "Locked3x"%string [] 3%N []); (Variant "Locked4x"%string [] 4%N []); (Variant "Locked5x"%string [] 5%N []); (Variant "Locked6x"%string [] 6%N [])]) []).
Definition md_t281 : ty := (Ty ["orml_oracle"%string; "module"%string; "Call"%string] [("T"%string,None); ("I"%string,None)] (TVariant [(Variant "feed_values"%string [(Field (Some "values"%string) 129%N (Some "Vec<(T::OracleKey, T::OracleValue)>"%string) [])] 0%N ["Feed the external value."%string; ""%string; "Require authorized operator."%string])]) ["Contains one variant per dispatchable that can be called by an extrinsic."%string]).
Definition md_t282 : ty := (Ty ["pallet_membership"%string; "pallet"%string; "Call"%string] [("T"%string,None); ("I"%string,None)] (TVariant [(Variant "add_member"%string [(Field (Some "who"%string) 0%N (Some "T::AccountId"%string) [])] 0%N ["Add a member `who` to the set."%string; ""%string; "May only be called from `T::AddOrigin`."%string]); (Variant "remove_member"%string [(Field (Some "who"%string) 0%N (Some "T::AccountId"%string) [])] 1%N ["Remove a member `who` from the set."%string; ""%string; "May only be called from `T::RemoveOrigin`."%string]); (Variant "swap_member"%string [(Field (Some "remove"%string) 0%N (Some "T::AccountId"%string) []); (Field (Some "add"%string) 0%N (Some "T::AccountId"%string) [])] 2%N ["Swap out one member `remove` for another `add`."%string; ""%string; "May only be called from `T::SwapOrigin`."%string; ""%string; "Prime membership is *not* passed from `remove` to `add`, if extant."%string]); (Variant "reset_members"%string [(Field (Some "members"%string) 56%N (Some "Vec<T::AccountId>"%string) [])] 3%N ["Change the membership to a new set, disregarding the existing membership. Be nice and"%string; "pass `members` pre-sorted."%string; ""%string; "May only be called from `T::ResetOrigin`."%string]); (Variant "change_key"%string [(Field (Some "new"%string) 0%N (Some "T::AccountId"%string) [])] 4%N ["Swap out the sending member for some other key `new`."%string; ""%string; "May only be called from `Signed` origin of a current member."%string; ""%string; "Prime membership is passed from the origin account to `new`, if extant."%string]); (Variant "set_prime"%string [(Field (Some "who"%string) 0%N (Some "T::AccountId"%string) [])] 5%N ["Set the prime member. Must be a current member."%string; ""%string; "May only be called from `T::PrimeOrigin`."%string]); (Variant "clear_prime"%string [] 6%N ["Remove the prime member if it exists."%string; ""%string; "May only be called from `T::PrimeOrigin`."%string])]) ["Contains one variant per dispatchable that can be called by an extrinsic."%string]).
Definition md_t283 : ty := (Ty ["orml_auction"%string; "module"%string; "Call"%string] [("T"%string,None)] (TVariant [(Variant "bid"%string [(Field (Some "id"%string) 4%N (Some "T::AuctionId"%string) []); (Field (Some "value"%string) 50%N (Some "T::Balance"%string) [])] 0%N ["Bid an auction."%string; ""%string; "The dispatch origin for this call must be `Signed` by the"%string; "transactor."%string])]) ["Contains one variant per dispatchable that can be called by an extrinsic."%string]).
Definition md_t284 : ty := (Ty ["orml_rewards"%string; "module"%string; "Call"%string] [("T"%string,None)] (TVariant []) ["Contains one variant per dispatchable that can be called by an extrinsic."%string]).
Definition md_t285 : ty := (Ty ["module_prices"%string; "module"%string; "Call"%string] [("T"%string,None)] (TVariant [(Variant "lock_price"%string [(Field (Some "currency_id"%string) 41%N (Some "CurrencyId"%string) [])] 0%N ["Lock the price and feed it to system."%string; ""%string; "The dispatch origin of this call must be `LockOrigin`."%string; ""%string; "- `currency_id`: currency type."%string]); (Variant "unlock_price"%string [(Field (Some "currency_id"%string) 41%N (Some "CurrencyId"%string) [])] 1%N ["Unlock the price and get the price from `PriceProvider` again"%string; ""%string; "The dispatch origin of this call must be `LockOrigin`."%string; ""%string; "- `currency_id`: currency type."%string])]) ["Contains one variant per dispatchable that can be called by an extrinsic."%string]).
Definition md_t286 : ty := (Ty ["module_dex"%string; "module"%string; "Call"%string] [("T"%string,None)] (TVariant [(Variant "swap_with_exact_supply"%string [(Field (Some "path"%string) 136%N (Some "Vec<CurrencyId>"%string) []); (Field (Some "supply_amount"%string) 50%N (Some "Balance"%string) []); (Field (Some "min_target_amount"%string) 50%N (Some "Balance"%string) [])] 0%N ["Trading with DEX, swap with exact supply amount"%string; ""%string; "- `path`: trading path."%string; "- `supply_amount`: exact supply amount."%string; "- `min_target_amount`: acceptable minimum target amount."%string]); (Variant "swap_with_exact_target"%string [(Field (Some "path"%string) 136%N (Some "Vec<CurrencyId>"%string) []); (Field (Some "target_amount"%string) 50%N (Some "Balance"%string) []); (Field (Some "max_supply_amount"%string) 50%N (Some "Balance"%string) [])] 1%N ["Trading with DEX, swap with exact target amount"%string; ""%string; "- `path`: trading path."%string; "- `target_amount`: exact target amount."%string; "- `max_supply_amount`: acceptable maximum supply amount."%string]); (Variant "add_liquidity"%string [(Field (Some "currency_id_a"%string) 41%N (Some "CurrencyId"%string) []); (Field (Some "currency_id_b"%string) 41%N (Some "CurrencyId"%string) []); (Field (Some "max_amount_a"%string) 50%N (Some "Balance"%string) []); (Field (Some "max_amount_b"%string) 50%N (Some "Balance"%string) []); (Field (Some "min_share_increment"%string) 50%N (Some "Balance"%string) []); (Field (Some "stake_increment_share"%string) 118%N (Some "bool"%string) [])] 2%N ["Add liquidity to Enabled trading pair."%string; "- Add provision success will record the provision, issue shares to caller in the initial"%string; "  exchange rate when trading pair convert to Enabled."%string; ""%string; "- `currency_id_a`: currency id A."%string; "- `currency_id_b`: currency id B."%string; "- `max_amount_a`: maximum amount of currency_id_a is allowed to inject to liquidity"%string; "  pool."%string; "- `max_amount_b`: maximum amount of currency_id_b is allowed to inject to liquidity"%string; "  pool."%string; "- `min_share_increment`: minimum acceptable share amount."%string; "- `stake_increment_share`: indicates whether to stake increased dex share to earn"%string; "  incentives"%string]); (Variant "add_provision"%string [(Field (Some "currency_id_a"%string) 41%N (Some "CurrencyId"%string) []); (Field (Some "currency_id_b"%string) 41%N (Some "CurrencyId"%string) []); (Field (Some "amount_a"%string) 50%N (Some "Balance"%string) []); (Field (Some "amount_b"%string) 50%N (Some "Balance"%string) [])] 3%N ["Add provision to Provisioning trading pair."%string; "If succecced, will record the provision, but shares issuing will happen after the"%string; "trading pair convert to Enabled status."%string; ""%string; "- `currency_id_a`: currency id A."%string; "- `currency_id_b`: currency id B."%string; "- `amount_a`: provision amount for currency_id_a."%string; "- `amount_b`: provision amount for currency_id_b."%string]); (Variant "claim_dex_share"%string [(Field (Some "owner"%string) 0%N (Some "T::AccountId"%string) []); (Field (Some "currency_id_a"%string) 41%N (Some "CurrencyId"%string) []); (Field (Some "currency_id_b"%string) 41%N (Some "CurrencyId"%string) [])] 4%N ["Claim dex share for founders who have participated in trading pair provision."%string; ""%string; "- `owner`: founder account."%string; "- `currency_id_a`: currency id A."%string; "- `currency_id_b`: currency id B."%string]); (Variant "remove_liquidity"%string [(Field (Some "currency_id_a"%string) 41%N (Some "CurrencyId"%string) []); (Field (Some "currency_id_b"%string) 41%N (Some "CurrencyId"%string) []); (Field (Some "remove_share"%string) 50%N (Some "Balance"%string) []); (Field (Some "min_withdrawn_a"%string) 50%N (Some "Balance"%string) []); (Field (Some "min_withdrawn_b"%string) 50%N (Some "Balance"%string) []); (Field (Some "by_unstake"%string) 118%N (Some "bool"%string) [])] 5%N ["Remove liquidity from specific liquidity pool in the form of burning"%string; "shares, and withdrawing currencies in trading pairs from liquidity"%string; "pool in proportion, and withdraw liquidity incentive interest."%string; ""%string; "- `currency_id_a`: currency id A."%string; "- `currency_id_b`: currency id B."%string; "- `remove_share`: liquidity amount to remove."%string; "- `min_withdrawn_a`: minimum acceptable withrawn for currency_id_a."%string; "- `min_withdrawn_b`: minimum acceptable withrawn for currency_id_b."%string; "- `by_unstake`: this flag indicates whether to withdraw share which is on incentives."%string]); (Variant "list_provisioning"%string [(Field (Some "currency_id_a"%string) 41%N (Some "CurrencyId"%string) []); (Field (Some "currency_id_b"%string) 41%N (Some "CurrencyId"%string) []); (Field (Some "min_contribution_a"%string) 50%N (Some "Balance"%string) []); (Field (Some "min_contribution_b"%string) 50%N (Some "Balance"%string) []); (Field (Some "target_provision_a"%string) 50%N (Some "Balance"%string) []); (Field (Some "target_provision_b"%string) 50%N (Some "Balance"%string) []); (Field (Some "not_before"%string) 67%N (Some "T::BlockNumber"%string) [])] 6%N ["List a new provisioning trading pair."%string]); (Variant "update_provisioning_parameters"%string [(Field (Some "currency_id_a"%string) 41%N (Some "CurrencyId"%string) []); (Field (Some "currency_id_b"%string) 41%N (Some "CurrencyId"%string) []); (Field (Some "min_contribution_a"%string) 50%N (Some "Balance"%string) []); (Field (Some "min_contribution_b"%string) 50%N (Some "Balance"%string) []); (Field (Some "target_provision_a"%string) 50%N (Some "Balance"%string) []); (Field (Some "target_provision_b"%string) 50%N (Some "Balance"%string) []); (Field (Some "not_before"%string) 67%N (Some "T::BlockNumber"%string) [])] 7%N ["List a new trading pair, trading pair will become Enabled status"%string; "after provision process."%string]); (Variant "end_provisioning"%string [(Field (Some "currency_id_a"%string) 41%N (Some "CurrencyId"%string) []); (Field (Some "currency_id_b"%string) 41%N (Some "CurrencyId"%string) [])] 8%N ["Enable a Provisioning trading pair if meet the condition."%string]); (Variant "enable_trading_pair"%string [(Field (Some "currency_id_a"%string) 41%N (Some "CurrencyId"%string) []); (Field (Some "currency_id_b"%string) 41%N (Some "CurrencyId"%string) [])] 9%N ["Enable a trading pair"%string; "if the status of trading pair is `Disabled`, or `Provisioning` without any accumulated"%string; "provision, enable it directly."%string]); (Variant "disable_trading_pair"%string [(Field (Some "currency_id_a"%string) 41%N (Some "CurrencyId"%string) []); (Field (Some "currency_id_b"%string) 41%N (Some "CurrencyId"%string) [])] 10%N ["Disable a `Enabled` trading pair."%string])]) ["Contains one variant per dispatchable that can be called by an extrinsic."%string]).
Definition md_t287 : ty := (Ty ["module_auction_manager"%string; "module"%string; "Call"%string] [("T"%string,None)] (TVariant [(Variant "cancel"%string [(Field (Some "id"%string) 4%N (Some "AuctionId"%string) [])] 0%N ["Cancel active auction after system shutdown"%string; ""%string; "The dispatch origin of this call must be _None_."%string])]) ["Contains one variant per dispatchable that can be called by an extrinsic."%string]).
Definition md_t288 : ty := (Ty ["module_loans"%string; "module"%string; "Call"%string] [("T"%string,None)] (TVariant []) ["Contains one variant per dispatchable that can be called by an extrinsic."%string]).
Definition md_t289 : ty := (Ty ["module_honzon"%string; "module"%string; "Call"%string] [("T"%string,None)] (TVariant [(Variant "adjust_loan"%string [(Field (Some "currency_id"%string) 41%N (Some "CurrencyId"%string) []); (Field (Some "collateral_adjustment"%string) 47%N (Some "Amount"%string) []); (Field (Some "debit_adjustment"%string) 47%N (Some "Amount"%string) [])] 0%N ["Adjust the loans of `currency_id` by specific"%string; "`collateral_adjustment` and `debit_adjustment`"%string; ""%string; "- `currency_id`: collateral currency id."%string; "- `collateral_adjustment`: signed amount, positive means to deposit collateral currency"%string; "  into CDP, negative means withdraw collateral currency from CDP."%string; "- `debit_adjustment`: signed amount, positive means to issue some amount of stablecoin"%string; "  to caller according to the debit adjustment, negative means caller will payback some"%string; "  amount of stablecoin to CDP according to to the debit adjustment."%string]); (Variant "close_loan_has_debit_by_dex"%string [(Field (Some "currency_id"%string) 41%N (Some "CurrencyId"%string) []); (Field (Some "max_collateral_amount"%string) 50%N (Some "Balance"%string) [])] 1%N ["Close caller's CDP which has debit but still in safe by use collateral to swap"%string; "stable token on DEX for clearing debit."%string; ""%string; "- `currency_id`: collateral currency id."%string; "- `max_collateral_amount`: the max collateral amount which is used to swap enough"%string; "	stable token to clear debit."%string]); (Variant "transfer_loan_from"%string [(Field (Some "currency_id"%string) 41%N (Some "CurrencyId"%string) []); (Field (Some "from"%string) 209%N (Some "<T::Lookup as StaticLookup>::Source"%string) [])] 2%N ["Transfer the whole CDP of `from` under `currency_id` to caller's CDP"%string; "under the same `currency_id`, caller must have the authorization of"%string; "`from` for the specific collateral type"%string; ""%string; "- `currency_id`: collateral currency id."%string; "- `from`: authorizer account"%string]); (Variant "authorize"%string [(Field (Some "currency_id"%string) 41%N (Some "CurrencyId"%string) []); (Field (Some "to"%string) 209%N (Some "<T::Lookup as StaticLookup>::Source"%string) [])] 3%N ["Authorize `to` to manipulate the loan under `currency_id`"%string; ""%string; "- `currency_id`: collateral currency id."%string; "- `to`: authorizee account"%string]); (Variant "unauthorize"%string [(Field (Some "currency_id"%string) 41%N (Some "CurrencyId"%string) []); (Field (Some "to"%string) 209%N (Some "<T::Lookup as StaticLookup>::Source"%string) [])] 4%N ["Cancel the authorization for `to` under `currency_id`"%string; ""%string; "- `currency_id`: collateral currency id."%string; "- `to`: authorizee account"%string]); (Variant "unauthorize_all"%string [] 5%N ["Cancel all authorization of caller"%string])]) ["Contains one variant per dispatchable that can be called by an extrinsic."%string]).
Definition md_t290 : ty := (Ty ["module_cdp_treasury"%string; "module"%string; "Call"%string] [("T"%string,None)] (TVariant [(Variant "extract_surplus_to_treasury"%string [(Field (Some "amount"%string) 50%N (Some "Balance"%string) [])] 0%N []); (Variant "auction_collateral"%string [(Field (Some "currency_id"%string) 41%N (Some "CurrencyId"%string) []); (Field (Some "amount"%string) 50%N (Some "Balance"%string) []); (Field (Some "target"%string) 50%N (Some "Balance"%string) []); (Field (Some "splited"%string) 118%N (Some "bool"%string) [])] 1%N []); (Variant "set_expected_collateral_auction_size"%string [(Field (Some "currency_id"%string) 41%N (Some "CurrencyId"%string) []); (Field (Some "size"%string) 50%N (Some "Balance"%string) [])] 2%N ["Update parameters related to collateral auction under specific"%string; "collateral type"%string; ""%string; "The dispatch origin of this call must be `UpdateOrigin`."%string; ""%string; "- `currency_id`: collateral type"%string; "- `amount`: expected size of per lot collateral auction"%string])]) ["Contains one variant per dispatchable that can be called by an extrinsic."%string]).
Definition md_t291 : ty := (Ty ["module_cdp_engine"%string; "module"%string; "Call"%string] [("T"%string,None)] (TVariant [(Variant "liquidate"%string [(Field (Some "currency_id"%string) 41%N (Some "CurrencyId"%string) []); (Field (Some "who"%string) 209%N (Some "<T::Lookup as StaticLookup>::Source"%string) [])] 0%N ["Liquidate unsafe CDP"%string; ""%string; "The dispatch origin of this call must be _None_."%string; ""%string; "- `currency_id`: CDP's collateral type."%string; "- `who`: CDP's owner."%string]); (Variant "settle"%string [(Field (Some "currency_id"%string) 41%N (Some "CurrencyId"%string) []); (Field (Some "who"%string) 209%N (Some "<T::Lookup as StaticLookup>::Source"%string) [])] 1%N ["Settle CDP has debit after system shutdown"%string; ""%string; "The dispatch origin of this call must be _None_."%string; ""%string; "- `currency_id`: CDP's collateral type."%string; "- `who`: CDP's owner."%string]); (Variant "set_global_params"%string [(Field (Some "global_interest_rate_per_sec"%string) 131%N (Some "Rate"%string) [])] 2%N ["Update global parameters related to risk management of CDP"%string; ""%string; "The dispatch origin of this call must be `UpdateOrigin`."%string; ""%string; "- `global_interest_rate_per_sec`: global interest rate per sec."%string]); (Variant "set_collateral_params"%string [(Field (Some "currency_id"%string) 41%N (Some "CurrencyId"%string) []); (Field (Some "interest_rate_per_sec"%string) 292%N (Some "ChangeOptionRate"%string) []); (Field (Some "liquidation_ratio"%string) 292%N (Some "ChangeOptionRatio"%string) []); (Field (Some "liquidation_penalty"%string) 292%N (Some "ChangeOptionRate"%string) []); (Field (Some "required_collateral_ratio"%string) 292%N (Some "ChangeOptionRatio"%string) []); (Field (Some "maximum_total_debit_value"%string) 293%N (Some "ChangeBalance"%string) [])] 3%N ["Update parameters related to risk management of CDP under specific"%string; "collateral type"%string; ""%string; "The dispatch origin of this call must be `UpdateOrigin`."%string; ""%string; "- `currency_id`: collateral type."%string; "- `interest_rate_per_sec`: extra interest rate per sec, `None` means do not update,"%string; "  `Some(None)` means update it to `None`."%string; "- `liquidation_ratio`: liquidation ratio, `None` means do not update, `Some(None)` means"%string; "  update it to `None`."%string; "- `liquidation_penalty`: liquidation penalty, `None` means do not update, `Some(None)`"%string; "  means update it to `None`."%string; "- `required_collateral_ratio`: required collateral ratio, `None` means do not update,"%string; "  `Some(None)` means update it to `None`."%string; "- `maximum_total_debit_value`: maximum total debit value."%string])]) ["Contains one variant per dispatchable that can be called by an extrinsic."%string]).
Definition md_t292 : ty := (Ty ["orml_traits"%string; "Change"%string] [("Value"%string,(Some 145%N))] (TVariant [(Variant "NoChange"%string [] 0%N []); (Variant "NewValue"%string [(Field None 145%N (Some "Value"%string) [])] 1%N [])]) []).
Definition md_t293 : ty := (Ty ["orml_traits"%string; "Change"%string] [("Value"%string,(Some 6%N))] (TVariant [(Variant "NoChange"%string [] 0%N []); (Variant "NewValue"%string [(Field None 6%N (Some "Value"%string) [])] 1%N [])]) []).
Definition md_t294 : ty := (Ty ["module_emergency_shutdown"%string; "module"%string; "Call"%string] [("T"%string,None)] (TVariant [(Variant "emergency_shutdown"%string [] 0%N ["Start emergency shutdown"%string; ""%string; "The dispatch origin of this call must be `ShutdownOrigin`."%string]); (Variant "open_collateral_refund"%string [] 1%N ["Open final redemption if settlement is completed."%string; ""%string; "The dispatch origin of this call must be `ShutdownOrigin`."%string]); (Variant "refund_collaterals"%string [(Field (Some "amount"%string) 50%N (Some "Balance"%string) [])] 2%N ["Refund a basket of remaining collateral assets to caller"%string; ""%string; "- `amount`: stable currency amount used to refund."%string])]) ["Contains one variant per dispatchable that can be called by an extrinsic."%string]).
Definition md_t295 : ty := (Ty ["module_homa_lite"%string; "module"%string; "Call"%string] [("T"%string,None)] (TVariant [(Variant "mint"%string [(Field (Some "amount"%string) 50%N (Some "Balance"%string) [])] 0%N ["Mint some Liquid currency, by locking up the given amount of Staking currency."%string; "Will try to match Redeem Requests if available. Remaining amount is minted via XCM."%string; ""%string; "The exchange rate is calculated using the ratio of the total amount of the staking and"%string; "liquid currency."%string; ""%string; "If any amount is minted through XCM, a portion of that amount (T::MintFee and"%string; "T::MaxRewardPerEra) is deducted as fee."%string; ""%string; "Parameters:"%string; "- `amount`: The amount of Staking currency to be exchanged."%string]); (Variant "set_total_staking_currency"%string [(Field (Some "staking_total"%string) 6%N (Some "Balance"%string) [])] 1%N ["Sets the total amount of the Staking currency that are currently on the relaychain."%string; "Requires `T::GovernanceOrigin`"%string; ""%string; "Parameters:"%string; "- `staking_total`: The current amount of the Staking currency. Used to calculate"%string; "  conversion rate."%string]); (Variant "adjust_total_staking_currency"%string [(Field (Some "by_amount"%string) 47%N (Some "AmountOf<T>"%string) [])] 2%N ["Adjusts the total_staking_currency by the given difference."%string; "Requires `T::GovernanceOrigin`"%string; ""%string; "Parameters:"%string; "- `adjustment`: The difference in amount the total_staking_currency should be adjusted"%string; "  by."%string]); (Variant "set_minting_cap"%string [(Field (Some "new_cap"%string) 50%N (Some "Balance"%string) [])] 3%N ["Updates the cap for how much Staking currency can be used to Mint liquid currency."%string; "Requires `T::GovernanceOrigin`"%string; ""%string; "Parameters:"%string; "- `new_cap`: The new cap for staking currency."%string]); (Variant "set_xcm_dest_weight"%string [(Field (Some "xcm_dest_weight"%string) 69%N (Some "Weight"%string) [])] 4%N ["Sets the xcm_dest_weight for XCM transfers."%string; "Requires `T::GovernanceOrigin`"%string; ""%string; "Parameters:"%string; "- `xcm_dest_weight`: The new weight for XCM transfers."%string]); (Variant "mint_for_requests"%string [(Field (Some "amount"%string) 50%N (Some "Balance"%string) []); (Field (Some "requests"%string) 56%N (Some "Vec<T::AccountId>"%string) [])] 5%N ["Mint some Liquid currency, by locking up the given amount of Staking currency."%string; "This is similar with the mint() extrinsic, except that the given Redeem Requests are"%string; "matched with priority."%string; ""%string; "Parameters:"%string; "- `amount`: The amount of Staking currency to be exchanged."%string; "- `requests`: The redeem requests that are prioritized to match."%string]); (Variant "request_redeem"%string [(Field (Some "liquid_amount"%string) 50%N (Some "Balance"%string) []); (Field (Some "additional_fee"%string) 150%N (Some "Permill"%string) [])] 6%N ["Put in an request to redeem Staking currencies used to mint Liquid currency."%string; "The redemption will happen after the currencies are unbonded on the relaychain."%string; ""%string; "Parameters:"%string; "- `liquid_amount`: The amount of liquid currency to be redeemed into Staking currency."%string; "- `additional_fee`: Percentage of the fee to be awarded to the minter."%string]); (Variant "schedule_unbond"%string [(Field (Some "staking_amount"%string) 50%N (Some "Balance"%string) []); (Field (Some "unbond_block"%string) 4%N (Some "RelayChainBlockNumberOf<T>"%string) [])] 7%N ["Request staking currencies to be unbonded from the RelayChain."%string; ""%string; "Requires `T::GovernanceOrigin`"%string; ""%string; "Parameters:"%string; "- `staking_amount`: The amount of staking currency to be unbonded."%string; "- `unbond_block`: The relaychain block number to unbond."%string]); (Variant "replace_schedule_unbond"%string [(Field (Some "new_unbonds"%string) 296%N (Some "Vec<(Balance, RelayChainBlockNumberOf<T>)>"%string) [])] 8%N ["Replace the current storage for `ScheduledUnbond`."%string; "This should only be used to correct mistaken call of schedule_unbond or if something"%string; "unexpected happened on relaychain."%string; ""%string; "Requires `T::GovernanceOrigin`"%string; ""%string; "Parameters:"%string; "- `new_unbonds`: The new ScheduledUnbond storage to replace the current storage."%string]); (Variant "adjust_available_staking_balance"%string [(Field (Some "by_amount"%string) 47%N (Some "AmountOf<T>"%string) []); (Field (Some "max_num_matches"%string) 4%N (Some "u32"%string) [])] 9%N ["Adjusts the AvailableStakingBalance by the given difference."%string; "Also attempt to process queued redeem request with the new Staking Balance."%string; "Requires `T::GovernanceOrigin`"%string; ""%string; "Parameters:"%string; "- `adjustment`: The difference in amount the AvailableStakingBalance should be adjusted"%string; "  by."%string; ""%string; "Weight: Weight(xcm unbond) + n * Weight(match redeem requests), where n is number of"%string; "redeem requests matched."%string]); (Variant "set_staking_interest_rate_per_update"%string [(Field (Some "interest_rate"%string) 150%N (Some "Permill"%string) [])] 10%N ["Set the interest rate for TotalStakingCurrency."%string; "TotalStakingCurrency is incremented every `T::StakingUpdateFrequency` blocks"%string; ""%string; "Requires `T::GovernanceOrigin`"%string; ""%string; "Parameters:"%string; "- `interest_rate`: the new interest rate for TotalStakingCurrency."%string])]) ["Contains one variant per dispatchable that can be called by an extrinsic."%string]).
Definition md_t296 : ty := (Ty [] [] (TSequence 297%N) []).
Definition md_t297 : ty := (Ty [] [] (TTuple [6%N; 4%N]) []).
Definition md_t298 : ty := (Ty ["module_incentives"%string; "module"%string; "Call"%string] [("T"%string,None)] (TVariant [(Variant "deposit_dex_share"%string [(Field (Some "lp_currency_id"%string) 41%N (Some "CurrencyId"%string) []); (Field (Some "amount"%string) 50%N (Some "Balance"%string) [])] 0%N ["Stake LP token to add shares of Pool::Dex"%string; ""%string; "The dispatch origin of this call must be `Signed` by the transactor."%string; ""%string; "- `lp_currency_id`: LP token type"%string; "- `amount`: amount to stake"%string]); (Variant "withdraw_dex_share"%string [(Field (Some "lp_currency_id"%string) 41%N (Some "CurrencyId"%string) []); (Field (Some "amount"%string) 50%N (Some "Balance"%string) [])] 1%N ["Unstake LP token to remove shares of Pool::Dex"%string; ""%string; "The dispatch origin of this call must be `Signed` by the transactor."%string; ""%string; "- `lp_currency_id`: LP token type"%string; "- `amount`: amount to unstake"%string]); (Variant "claim_rewards"%string [(Field (Some "pool_id"%string) 152%N (Some "PoolId"%string) [])] 2%N ["Claim all avalible multi currencies rewards for specific PoolId."%string; ""%string; "The dispatch origin of this call must be `Signed` by the transactor."%string; ""%string; "- `pool_id`: pool type"%string]); (Variant "update_incentive_rewards"%string [(Field (Some "updates"%string) 299%N (Some "Vec<(PoolId, Vec<(CurrencyId, Balance)>)>"%string) [])] 3%N ["Update incentive reward amount for specific PoolId"%string; ""%string; "The dispatch origin of this call must be `UpdateOrigin`."%string; ""%string; "- `updates`: Vec<(PoolId, Vec<(RewardCurrencyId, FixedAmountPerPeriod)>)>"%string]); (Variant "update_dex_saving_rewards"%string [(Field (Some "updates"%string) 301%N (Some "Vec<(PoolId, Rate)>"%string) [])] 4%N ["Update DEX saving reward rate for specific PoolId"%string; ""%string; "The dispatch origin of this call must be `UpdateOrigin`."%string; ""%string; "- `updates`: Vec<(PoolId, Rate)>"%string]); (Variant "update_claim_reward_deduction_rates"%string [(Field (Some "updates"%string) 301%N (Some "Vec<(PoolId, Rate)>"%string) [])] 5%N ["Update claim rewards deduction rates for all rewards currencies of specific PoolId"%string; ""%string; "The dispatch origin of this call must be `UpdateOrigin`."%string; ""%string; "- `updates`: Vec<(PoolId, DecutionRate>)>"%string])]) ["Contains one variant per dispatchable that can be called by an extrinsic."%string]).
Definition md_t299 : ty := (Ty [] [] (TSequence 300%N) []).
Definition md_t300 : ty := (Ty [] [] (TTuple [152%N; 147%N]) []).
Definition md_t301 : ty := (Ty [] [] (TSequence 302%N) []).
Definition md_t302 : ty := (Ty [] [] (TTuple [152%N; 131%N]) []).
Definition md_t303 : ty := (Ty ["module_nft"%string; "module"%string; "Call"%string] [("T"%string,None)] (TVariant [(Variant "create_class"%string [(Field (Some "metadata"%string) 10%N (Some "CID"%string) []); (Field (Some "properties"%string) 304%N (Some "Properties"%string) []); (Field (Some "attributes"%string) 306%N (Some "Attributes"%string) [])] 0%N ["Create NFT class, tokens belong to the class."%string; ""%string; "- `metadata`: external metadata"%string; "- `properties`: class property, include `Transferable` `Burnable`"%string]); (Variant "mint"%string [(Field (Some "to"%string) 209%N (Some "<T::Lookup as StaticLookup>::Source"%string) []); (Field (Some "class_id"%string) 4%N (Some "ClassIdOf<T>"%string) []); (Field (Some "metadata"%string) 10%N (Some "CID"%string) []); (Field (Some "attributes"%string) 306%N (Some "Attributes"%string) []); (Field (Some "quantity"%string) 67%N (Some "u32"%string) [])] 1%N ["Mint NFT token"%string; ""%string; "- `to`: the token owner's account"%string; "- `class_id`: token belong to the class id"%string; "- `metadata`: external metadata"%string; "- `quantity`: token quantity"%string]); (Variant "transfer"%string [(Field (Some "to"%string) 209%N (Some "<T::Lookup as StaticLookup>::Source"%string) []); (Field (Some "token"%string) 307%N (Some "(ClassIdOf<T>, TokenIdOf<T>)"%string) [])] 2%N ["Transfer NFT token to another account"%string; ""%string; "- `to`: the token owner's account"%string; "- `token`: (class_id, token_id)"%string]); (Variant "burn"%string [(Field (Some "token"%string) 307%N (Some "(ClassIdOf<T>, TokenIdOf<T>)"%string) [])] 3%N ["Burn NFT token"%string; ""%string; "- `token`: (class_id, token_id)"%string]); (Variant "burn_with_remark"%string [(Field (Some "token"%string) 307%N (Some "(ClassIdOf<T>, TokenIdOf<T>)"%string) []); (Field (Some "remark"%string) 10%N (Some "Vec<u8>"%string) [])] 4%N ["Burn NFT token"%string; ""%string; "- `token`: (class_id, token_id)"%string; "- `remark`: Vec<u8>"%string]); (Variant "destroy_class"%string [(Field (Some "class_id"%string) 4%N (Some "ClassIdOf<T>"%string) []); (Field (Some "dest"%string) 209%N (Some "<T::Lookup as StaticLookup>::Source"%string) [])] 5%N ["Destroy NFT class, remove dest from proxy, and send all the free"%string; "balance to dest"%string; ""%string; "- `class_id`: The class ID to destroy"%string; "- `dest`: The proxy account that will receive free balance"%string]); (Variant "update_class_properties"%string [(Field (Some "class_id"%string) 4%N (Some "ClassIdOf<T>"%string) []); (Field (Some "properties"%string) 304%N (Some "Properties"%string) [])] 6%N ["Update NFT class properties. The current class properties must contains"%string; "ClassPropertiesMutable."%string; ""%string; "- `class_id`: The class ID to update"%string; "- `properties`: The new properties"%string])]) ["Contains one variant per dispatchable that can be called by an extrinsic."%string]).
Definition md_t304 : ty := (Ty ["module_nft"%string; "BitFlags"%string] [("T"%string,(Some 305%N))] (TComposite [(Field None 2%N (Some "ClassProperty"%string) [])]) []).
Definition md_t305 : ty := (Ty ["module_nft"%string; "ClassProperty"%string] [] (TVariant [(Variant "Transferable"%string [] 1%N []); (Variant "Burnable"%string [] 2%N []); (Variant "Mintable"%string [] 4%N []); (Variant "ClassPropertiesMutable"%string [] 8%N [])]) []).
Definition md_t306 : ty := (Ty ["BTreeMap"%string] [("K"%string,(Some 10%N)); ("V"%string,(Some 10%N))] (TComposite [(Field None 174%N None [])]) []).
Definition md_t307 : ty := (Ty [] [] (TTuple [4%N; 8%N]) []).
Definition md_t308 : ty := (Ty ["module_asset_registry"%string; "module"%string; "Call"%string] [("T"%string,None)] (TVariant [(Variant "register_foreign_asset"%string [(Field (Some "location"%string) 98%N (Some "Box<VersionedMultiLocation>"%string) []); (Field (Some "metadata"%string) 155%N (Some "Box<AssetMetadata<BalanceOf<T>>>"%string) [])] 0%N []); (Variant "update_foreign_asset"%string [(Field (Some "foreign_asset_id"%string) 35%N (Some "ForeignAssetId"%string) []); (Field (Some "location"%string) 98%N (Some "Box<VersionedMultiLocation>"%string) []); (Field (Some "metadata"%string) 155%N (Some "Box<AssetMetadata<BalanceOf<T>>>"%string) [])] 1%N [])]) ["Contains one variant per dispatchable that can be called by an extrinsic."%string]).
Definition md_t309 : ty := (Ty ["module_evm"%string; "module"%string; "Call"%string] [("T"%string,None)] (TVariant [(Variant "eth_call"%string [(Field (Some "action"%string) 310%N (Some "TransactionAction"%string) []); (Field (Some "input"%string) 10%N (Some "Vec<u8>"%string) []); (Field (Some "value"%string) 50%N (Some "BalanceOf<T>"%string) []); (Field (Some "gas_limit"%string) 69%N (Some "u64"%string) []); (Field (Some "storage_limit"%string) 67%N (Some "u32"%string) []); (Field (Some "valid_until"%string) 67%N (Some "T::BlockNumber"%string) [])] 0%N []); (Variant "call"%string [(Field (Some "target"%string) 44%N (Some "EvmAddress"%string) []); (Field (Some "input"%string) 10%N (Some "Vec<u8>"%string) []); (Field (Some "value"%string) 50%N (Some "BalanceOf<T>"%string) []); (Field (Some "gas_limit"%string) 69%N (Some "u64"%string) []); (Field (Some "storage_limit"%string) 67%N (Some "u32"%string) [])] 1%N ["Issue an EVM call operation. This is similar to a message call"%string; "transaction in Ethereum."%string; ""%string; "- `target`: the contract address to call"%string; "- `input`: the data supplied for the call"%string; "- `value`: the amount sent for payable calls"%string; "- `gas_limit`: the maximum gas the call can use"%string; "- `storage_limit`: the total bytes the contract's storage can increase by"%string]); (Variant "scheduled_call"%string [(Field (Some "from"%string) 44%N (Some "EvmAddress"%string) []); (Field (Some "target"%string) 44%N (Some "EvmAddress"%string) []); (Field (Some "input"%string) 10%N (Some "Vec<u8>"%string) []); (Field (Some "value"%string) 50%N (Some "BalanceOf<T>"%string) []); (Field (Some "gas_limit"%string) 69%N (Some "u64"%string) []); (Field (Some "storage_limit"%string) 67%N (Some "u32"%string) [])] 2%N ["Issue an EVM call operation on a scheduled contract call, and"%string; "refund the unused gas reserved when the call was scheduled."%string; ""%string; "- `from`: the address the scheduled call originates from"%string; "- `target`: the contract address to call"%string; "- `input`: the data supplied for the call"%string; "- `value`: the amount sent for payable calls"%string; "- `gas_limit`: the maximum gas the call can use"%string; "- `storage_limit`: the total bytes the contract's storage can increase by"%string]); (Variant "create"%string [(Field (Some "init"%string) 10%N (Some "Vec<u8>"%string) []); (Field (Some "value"%string) 50%N (Some "BalanceOf<T>"%string) []); (Field (Some "gas_limit"%string) 69%N (Some "u64"%string) []); (Field (Some "storage_limit"%string) 67%N (Some "u32"%string) [])] 3%N ["Issue an EVM create operation. This is similar to a contract"%string; "creation transaction in Ethereum."%string; ""%string; "- `init`: the data supplied for the contract's constructor"%string; "- `value`: the amount sent to the contract upon creation"%string; "- `gas_limit`: the maximum gas the call can use"%string; "- `storage_limit`: the total bytes the contract's storage can increase by"%string]); (Variant "create2"%string [(Field (Some "init"%string) 10%N (Some "Vec<u8>"%string) []); (Field (Some "salt"%string) 9%N (Some "H256"%string) []); (Field (Some "value"%string) 50%N (Some "BalanceOf<T>"%string) []); (Field (Some "gas_limit"%string) 69%N (Some "u64"%string) []); (Field (Some "storage_limit"%string) 67%N (Some "u32"%string) [])] 4%N ["Issue an EVM create2 operation."%string; ""%string; "- `target`: the contract address to call"%string; "- `init`: the data supplied for the contract's constructor"%string; "- `salt`: used for generating the new contract's address"%string; "- `value`: the amount sent for payable calls"%string; "- `gas_limit`: the maximum gas the call can use"%string; "- `storage_limit`: the total bytes the contract's storage can increase by"%string]); (Variant "create_nft_contract"%string [(Field (Some "init"%string) 10%N (Some "Vec<u8>"%string) []); (Field (Some "value"%string) 50%N (Some "BalanceOf<T>"%string) []); (Field (Some "gas_limit"%string) 69%N (Some "u64"%string) []); (Field (Some "storage_limit"%string) 67%N (Some "u32"%string) [])] 5%N ["Create mirrored NFT contract. The next available system contract"%string; "address will be used as created contract address."%string; ""%string; "- `init`: the data supplied for the contract's constructor"%string; "- `value`: the amount sent for payable calls"%string; "- `gas_limit`: the maximum gas the call can use"%string; "- `storage_limit`: the total bytes the contract's storage can increase by"%string]); (Variant "create_predeploy_contract"%string [(Field (Some "target"%string) 44%N (Some "EvmAddress"%string) []); (Field (Some "init"%string) 10%N (Some "Vec<u8>"%string) []); (Field (Some "value"%string) 50%N (Some "BalanceOf<T>"%string) []); (Field (Some "gas_limit"%string) 69%N (Some "u64"%string) []); (Field (Some "storage_limit"%string) 67%N (Some "u32"%string) [])] 6%N ["Issue an EVM create operation. The address specified"%string; "will be used as created contract address."%string; ""%string; "- `target`: the address specified by the contract"%string; "- `init`: the data supplied for the contract's constructor"%string; "- `value`: the amount sent for payable calls"%string; "- `gas_limit`: the maximum gas the call can use"%string; "- `storage_limit`: the total bytes the contract's storage can increase by"%string]); (Variant "transfer_maintainer"%string [(Field (Some "contract"%string) 44%N (Some "EvmAddress"%string) []); (Field (Some "new_maintainer"%string) 44%N (Some "EvmAddress"%string) [])] 7%N ["Transfers Contract maintainership to a new EVM Address."%string; ""%string; "- `contract`: the contract whose maintainership is being transferred, the caller must be"%string; "  the contract's maintainer"%string; "- `new_maintainer`: the address of the new maintainer"%string]); (Variant "deploy"%string [(Field (Some "contract"%string) 44%N (Some "EvmAddress"%string) [])] 8%N ["Mark a given contract as deployed."%string; ""%string; "- `contract`: The contract to mark as deployed, the caller must the contract's"%string; "  maintainer"%string]); (Variant "deploy_free"%string [(Field (Some "contract"%string) 44%N (Some "EvmAddress"%string) [])] 9%N ["Mark a given contract as deployed without paying the deployment fee"%string; ""%string; "- `contract`: The contract to mark as deployed, the caller must be the contract's"%string; "  maintainer."%string]); (Variant "enable_contract_development"%string [] 10%N ["Mark the caller's address to allow contract development."%string; "This allows the address to interact with non-deployed contracts."%string]); (Variant "disable_contract_development"%string [] 11%N ["Mark the caller's address to disable contract development."%string; "This disallows the address to interact with non-deployed contracts."%string]); (Variant "set_code"%string [(Field (Some "contract"%string) 44%N (Some "EvmAddress"%string) []); (Field (Some "code"%string) 10%N (Some "Vec<u8>"%string) [])] 12%N ["Set the code of a contract at a given address."%string; ""%string; "- `contract`: The contract whose code is being set, must not be marked as deployed"%string; "- `code`: The new ABI bundle for the contract"%string]); (Variant "selfdestruct"%string [(Field (Some "contract"%string) 44%N (Some "EvmAddress"%string) [])] 13%N ["Remove a contract at a given address."%string; ""%string; "- `contract`: The contract to remove, must not be marked as deployed"%string])]) ["Contains one variant per dispatchable that can be called by an extrinsic."%string]).
Definition md_t310 : ty := (Ty ["ethereum"%string; "transaction"%string; "TransactionAction"%string] [] (TVariant [(Variant "Call"%string [(Field None 44%N (Some "H160"%string) [])] 0%N []); (Variant "Create"%string [] 1%N [])]) []).
Definition md_t311 : ty := (Ty ["module_evm_accounts"%string; "module"%string; "Call"%string] [("T"%string,None)] (TVariant [(Variant "claim_account"%string [(Field (Some "eth_address"%string) 44%N (Some "EvmAddress"%string) []); (Field (Some "eth_signature"%string) 312%N (Some "EcdsaSignature"%string) [])] 0%N ["Claim account mapping between Substrate accounts and EVM accounts."%string; "Ensure eth_address has not been mapped."%string; ""%string; "- `eth_address`: The address to bind to the caller's account"%string; "- `eth_signature`: A signature generated by the address to prove ownership"%string]); (Variant "claim_default_account"%string [] 1%N ["Claim account mapping between Substrate accounts and a generated EVM"%string; "address based off of those accounts."%string; "Ensure eth_address has not been mapped"%string])]) ["Contains one variant per dispatchable that can be called by an extrinsic."%string]).
Definition md_t312 : ty := (Ty ["sp_core"%string; "ecdsa"%string; "Signature"%string] [] (TComposite [(Field None 313%N (Some "[u8; 65]"%string) [])]) []).
Definition md_t313 : ty := (Ty [] [] (TArray 65%N 2%N) []).
Definition md_t314 : ty := (Ty ["pallet_sudo"%string; "pallet"%string; "Call"%string] [("T"%string,None)] (TVariant [(Variant "sudo"%string [(Field (Some "call"%string) 193%N (Some "Box<<T as Config>::Call>"%string) [])] 0%N ["Authenticates the sudo key and dispatches a function call with `Root` origin."%string; ""%string; "The dispatch origin for this call must be _Signed_."%string; ""%string; "# <weight>"%string; "- O(1)."%string; "- Limited storage reads."%string; "- One DB write (event)."%string; "- Weight of derivative `call` execution + 10,000."%string; "# </weight>"%string]); (Variant "sudo_unchecked_weight"%string [(Field (Some "call"%string) 193%N (Some "Box<<T as Config>::Call>"%string) []); (Field (Some "weight"%string) 8%N (Some "Weight"%string) [])] 1%N ["Authenticates the sudo key and dispatches a function call with `Root` origin."%string; "This function does not check the weight of the call, and instead allows the"%string; "Sudo user to specify the weight of the call."%string; ""%string; "The dispatch origin for this call must be _Signed_."%string; ""%string; "# <weight>"%string; "- O(1)."%string; "- The weight of this call is defined by the caller."%string; "# </weight>"%string]); (Variant "set_key"%string [(Field (Some "new"%string) 209%N (Some "<T::Lookup as StaticLookup>::Source"%string) [])] 2%N ["Authenticates the current sudo key and sets the given AccountId (`new`) as the new sudo"%string; "key."%string; ""%string; "The dispatch origin for this call must be _Signed_."%string; ""%string; "# <weight>"%string; "- O(1)."%string; "- Limited storage reads."%string; "- One DB change."%string; "# </weight>"%string]); (Variant "sudo_as"%string [(Field (Some "who"%string) 209%N (Some "<T::Lookup as StaticLookup>::Source"%string) []); (Field (Some "call"%string) 193%N (Some "Box<<T as Config>::Call>"%string) [])] 3%N ["Authenticates the sudo key and dispatches a function call with `Signed` origin from"%string; "a given account."%string; ""%string; "The dispatch origin for this call must be _Signed_."%string; ""%string; "# <weight>"%string; "- O(1)."%string; "- Limited storage reads."%string; "- One DB write (event)."%string; "- Weight of derivative `call` execution + 10,000."%string; "# </weight>"%string])]) ["Contains one variant per dispatchable that can be called by an extrinsic."%string]).
Definition md_t315 : ty := (Ty ["pallet_scheduler"%string; "Releases"%string] [] (TVariant [(Variant "V1"%string [] 0%N []); (Variant "V2"%string [] 1%N [])]) []).
Definition md_t316 : ty := (Ty ["pallet_scheduler"%string; "pallet"%string; "Error"%string] [("T"%string,None)] (TVariant [(Variant "FailedToSchedule"%string [] 0%N ["Failed to schedule a call"%string]); (Variant "NotFound"%string [] 1%N ["Cannot find the scheduled call."%string]); (Variant "TargetBlockNumberInPast"%string [] 2%N ["Given target block number is in the past."%string]); (Variant "RescheduleNoChange"%string [] 3%N ["Reschedule failed because it does not change scheduled time."%string])]) ["
			Custom [dispatch errors](https://docs.substrate.io/v3/runtime/events-and-errors)
			of this pallet.
			"%string]).
Definition md_t317 : ty := (Ty ["pallet_utility"%string; "pallet"%string; "Error"%string] [("T"%string,None)] (TVariant [(Variant "TooManyCalls"%string [] 0%N ["Too many calls batched."%string])]) ["
			Custom [dispatch errors](https://docs.substrate.io/v3/runtime/events-and-errors)
			of this pallet.
			"%string]).
Definition md_t318 : ty := (Ty [] [] (TTuple [0%N; 1%N]) []).
Definition md_t319 : ty := (Ty ["pallet_multisig"%string; "Multisig"%string] [("BlockNumber"%string,(Some 4%N)); ("Balance"%string,(Some 6%N)); ("AccountId"%string,(Some 0%N))] (TComposite [(Field (Some "when"%string) 32%N (Some "Timepoint<BlockNumber>"%string) []); (Field (Some "deposit"%string) 6%N (Some "Balance"%string) []); (Field (Some "depositor"%string) 0%N (Some "AccountId"%string) []); (Field (Some "approvals"%string) 56%N (Some "Vec<AccountId>"%string) [])]) []).
Definition md_t320 : ty := (Ty [] [] (TTuple [200%N; 0%N; 6%N]) []).
Definition md_t321 : ty := (Ty ["pallet_multisig"%string; "pallet"%string; "Error"%string] [("T"%string,None)] (TVariant [(Variant "MinimumThreshold"%string [] 0%N ["Threshold must be 2 or greater."%string]); (Variant "AlreadyApproved"%string [] 1%N ["Call is already approved by this signatory."%string]); (Variant "NoApprovalsNeeded"%string [] 2%N ["Call doesn't need any (more) approvals."%string]); (Variant "TooFewSignatories"%string [] 3%N ["There are too few signatories in the list."%string]); (Variant "TooManySignatories"%string [] 4%N ["There are too many signatories in the list."%string]); (Variant "SignatoriesOutOfOrder"%string [] 5%N ["The signatories were provided out of order; they should be ordered."%string]); (Variant "SenderInSignatories"%string [] 6%N ["The sender was contained in the other signatories; it shouldn't be."%string]); (Variant "NotFound"%string [] 7%N ["Multisig operation not found when attempting to cancel."%string]); (Variant "NotOwner"%string [] 8%N ["Only the account that originally created the multisig is able to cancel it."%string]); (Variant "NoTimepoint"%string [] 9%N ["No timepoint was given, yet the multisig operation is already underway."%string]); (Variant "WrongTimepoint"%string [] 10%N ["A different timepoint was given to the multisig operation that is underway."%string]); (Variant "UnexpectedTimepoint"%string [] 11%N ["A timepoint was given, yet no multisig operation is underway."%string]); (Variant "MaxWeightTooLow"%string [] 12%N ["The maximum weight information provided was too low."%string]); (Variant "AlreadyStored"%string [] 13%N ["The data to be stored is already stored."%string])]) ["
			Custom [dispatch errors](https://docs.substrate.io/v3/runtime/events-and-errors)
			of this pallet.
			"%string]).
Definition md_t322 : ty := (Ty [] [] (TTuple [323%N; 6%N]) []).
Definition md_t323 : ty := (Ty ["frame_support"%string; "storage"%string; "bounded_vec"%string; "BoundedVec"%string] [("T"%string,(Some 324%N)); ("S"%string,None)] (TComposite [(Field None 325%N (Some "Vec<T>"%string) [])]) []).
Definition md_t324 : ty := (Ty ["pallet_proxy"%string; "ProxyDefinition"%string] [("AccountId"%string,(Some 0%N)); ("ProxyType"%string,(Some 34%N)); ("BlockNumber"%string,(Some 4%N))] (TComposite [(Field (Some "delegate"%string) 0%N (Some "AccountId"%string) []); (Field (Some "proxy_type"%string) 34%N (Some "ProxyType"%string) []); (Field (Some "delay"%string) 4%N (Some "BlockNumber"%string) [])]) []).
Definition md_t325 : ty := (Ty [] [] (TSequence 324%N) []).
Definition md_t326 : ty := (Ty [] [] (TTuple [327%N; 6%N]) []).
Definition md_t327 : ty := (Ty ["frame_support"%string; "storage"%string; "bounded_vec"%string; "BoundedVec"%string] [("T"%string,(Some 328%N)); ("S"%string,None)] (TComposite [(Field None 329%N (Some "Vec<T>"%string) [])]) []).
Definition md_t328 : ty := (Ty ["pallet_proxy"%string; "Announcement"%string] [("AccountId"%string,(Some 0%N)); ("Hash"%string,(Some 9%N)); ("BlockNumber"%string,(Some 4%N))] (TComposite [(Field (Some "real"%string) 0%N (Some "AccountId"%string) []); (Field (Some "call_hash"%string) 9%N (Some "Hash"%string) []); (Field (Some "height"%string) 4%N (Some "BlockNumber"%string) [])]) []).
Definition md_t329 : ty := (Ty [] [] (TSequence 328%N) []).
Definition md_t330 : ty := (Ty ["pallet_proxy"%string; "pallet"%string; "Error"%string] [("T"%string,None)] (TVariant [(Variant "TooMany"%string [] 0%N ["There are too many proxies registered or too many announcements pending."%string]); (Variant "NotFound"%string [] 1%N ["Proxy registration not found."%string]); (Variant "NotProxy"%string [] 2%N ["Sender is not a proxy of the account to be proxied."%string]); (Variant "Unproxyable"%string [] 3%N ["A call which is incompatible with the proxy type's filter was attempted."%string]); (Variant "Duplicate"%string [] 4%N ["Account is already a proxy."%string]); (Variant "NoPermission"%string [] 5%N ["Call may not be made by proxy because it may escalate its privileges."%string]); (Variant "Unannounced"%string [] 6%N ["Announcement, if made at all, was made too recently."%string]); (Variant "NoSelfProxy"%string [] 7%N ["Cannot add self as proxy."%string])]) ["
			Custom [dispatch errors](https://docs.substrate.io/v3/runtime/events-and-errors)
			of this pallet.
			"%string]).
Definition md_t331 : ty := (Ty ["module_transaction_pause"%string; "module"%string; "Error"%string] [("T"%string,None)] (TVariant [(Variant "CannotPause"%string [] 0%N ["can not pause"%string]); (Variant "InvalidCharacter"%string [] 1%N ["invalid character encoding"%string])]) ["
			Custom [dispatch errors](https://docs.substrate.io/v3/runtime/events-and-errors)
			of this pallet.
			"%string]).
Definition md_t332 : ty := (Ty ["frame_support"%string; "storage"%string; "weak_bounded_vec"%string; "WeakBoundedVec"%string] [("T"%string,(Some 333%N)); ("S"%string,None)] (TComposite [(Field None 335%N (Some "Vec<T>"%string) [])]) []).
Definition md_t333 : ty := (Ty ["pallet_balances"%string; "BalanceLock"%string] [("Balance"%string,(Some 6%N))] (TComposite [(Field (Some "id"%string) 81%N (Some "LockIdentifier"%string) []); (Field (Some "amount"%string) 6%N (Some "Balance"%string) []); (Field (Some "reasons"%string) 334%N (Some "Reasons"%string) [])]) []).
Definition md_t334 : ty := (Ty ["pallet_balances"%string; "Reasons"%string] [] (TVariant [(Variant "Fee"%string [] 0%N []); (Variant "Misc"%string [] 1%N []); (Variant "All"%string [] 2%N [])]) []).
Definition md_t335 : ty := (Ty [] [] (TSequence 333%N) []).
Definition md_t336 : ty := (Ty ["frame_support"%string; "storage"%string; "bounded_vec"%string; "BoundedVec"%string] [("T"%string,(Some 337%N)); ("S"%string,None)] (TComposite [(Field None 339%N (Some "Vec<T>"%string) [])]) []).
Definition md_t337 : ty := (Ty ["pallet_balances"%string; "ReserveData"%string] [("ReserveIdentifier"%string,(Some 338%N)); ("Balance"%string,(Some 6%N))] (TComposite [(Field (Some "id"%string) 338%N (Some "ReserveIdentifier"%string) []); (Field (Some "amount"%string) 6%N (Some "Balance"%string) [])]) []).
Definition md_t338 : ty := (Ty ["acala_primitives"%string; "ReserveIdentifier"%string] [] (TVariant [(Variant "CollatorSelection"%string [] 0%N []); (Variant "EvmStorageDeposit"%string [] 1%N []); (Variant "EvmDeveloperDeposit"%string [] 2%N []); (Variant "Honzon"%string [] 3%N []); (Variant "Nft"%string [] 4%N []); (Variant "TransactionPayment"%string [] 5%N []); (Variant "Count"%string [] 6%N [])]) []).
Definition md_t339 : ty := (Ty [] [] (TSequence 337%N) []).
Definition md_t340 : ty := (Ty ["pallet_balances"%string; "Releases"%string] [] (TVariant [(Variant "V1_0_0"%string [] 0%N []); (Variant "V2_0_0"%string [] 1%N [])]) []).
Definition md_t341 : ty := (Ty ["pallet_balances"%string; "pallet"%string; "Error"%string] [("T"%string,None); ("I"%string,None)] (TVariant [(Variant "VestingBalance"%string [] 0%N ["Vesting balance too high to send value"%string]); (Variant "LiquidityRestrictions"%string [] 1%N ["Account liquidity restrictions prevent withdrawal"%string]); (Variant "InsufficientBalance"%string [] 2%N ["Balance too low to send value"%string]); (Variant "ExistentialDeposit"%string [] 3%N ["Value too low to create account due to existential deposit"%string]); (Variant "KeepAlive"%string [] 4%N ["Transfer/payment would kill account"%string]); (Variant "ExistingVestingSchedule"%string [] 5%N ["A vesting schedule already exists for this account"%string]); (Variant "DeadAccount"%string [] 6%N ["Beneficiary account must pre-exist"%string]); (Variant "TooManyReserves"%string [] 7%N ["Number of named reserves exceed MaxReserves"%string])]) ["
			Custom [dispatch errors](https://docs.substrate.io/v3/runtime/events-and-errors)
			of this pallet.
			"%string]).
Definition md_t342 : ty := (Ty [] [] (TTuple [0%N; 41%N]) []).
Definition md_t343 : ty := (Ty ["frame_support"%string; "storage"%string; "bounded_vec"%string; "BoundedVec"%string] [("T"%string,(Some 344%N)); ("S"%string,None)] (TComposite [(Field None 345%N (Some "Vec<T>"%string) [])]) []).
Definition md_t344 : ty := (Ty ["orml_tokens"%string; "BalanceLock"%string] [("Balance"%string,(Some 6%N))] (TComposite [(Field (Some "id"%string) 81%N (Some "LockIdentifier"%string) []); (Field (Some "amount"%string) 6%N (Some "Balance"%string) [])]) []).
Definition md_t345 : ty := (Ty [] [] (TSequence 344%N) []).
Definition md_t346 : ty := (Ty ["orml_tokens"%string; "AccountData"%string] [("Balance"%string,(Some 6%N))] (TComposite [(Field (Some "free"%string) 6%N (Some "Balance"%string) []); (Field (Some "reserved"%string) 6%N (Some "Balance"%string) []); (Field (Some "frozen"%string) 6%N (Some "Balance"%string) [])]) []).
Definition md_t347 : ty := (Ty ["orml_tokens"%string; "module"%string; "Error"%string] [("T"%string,None)] (TVariant [(Variant "BalanceTooLow"%string [] 0%N ["The balance is too low"%string]); (Variant "AmountIntoBalanceFailed"%string [] 1%N ["Cannot convert Amount into Balance type"%string]); (Variant "LiquidityRestrictions"%string [] 2%N ["Failed because liquidity restrictions due to locking"%string]); (Variant "MaxLocksExceeded"%string [] 3%N ["Failed because the maximum locks was exceeded"%string]); (Variant "KeepAlive"%string [] 4%N ["Transfer/payment would kill account"%string]); (Variant "ExistentialDeposit"%string [] 5%N ["Value too low to create account due to existential deposit"%string]); (Variant "DeadAccount"%string [] 6%N ["Beneficiary account must pre-exist"%string])]) ["
			Custom [dispatch errors](https://docs.substrate.io/v3/runtime/events-and-errors)
			of this pallet.
			"%string]).
Definition md_t348 : ty := (Ty ["module_currencies"%string; "module"%string; "Error"%string] [("T"%string,None)] (TVariant [(Variant "AmountIntoBalanceFailed"%string [] 0%N ["Unable to convert the Amount type into Balance."%string]); (Variant "BalanceTooLow"%string [] 1%N ["Balance is too low."%string]); (Variant "Erc20InvalidOperation"%string [] 2%N ["Erc20 invalid operation"%string]); (Variant "EvmAccountNotFound"%string [] 3%N ["EVM account not found"%string]); (Variant "RealOriginNotFound"%string [] 4%N ["Real origin not found"%string]); (Variant "DepositFailed"%string [] 5%N ["Deposit result is not expected"%string])]) ["
			Custom [dispatch errors](https://docs.substrate.io/v3/runtime/events-and-errors)
			of this pallet.
			"%string]).
Definition md_t349 : ty := (Ty ["frame_support"%string; "storage"%string; "bounded_vec"%string; "BoundedVec"%string] [("T"%string,(Some 49%N)); ("S"%string,None)] (TComposite [(Field None 212%N (Some "Vec<T>"%string) [])]) []).
Definition md_t350 : ty := (Ty ["orml_vesting"%string; "module"%string; "Error"%string] [("T"%string,None)] (TVariant [(Variant "ZeroVestingPeriod"%string [] 0%N ["Vesting period is zero"%string]); (Variant "ZeroVestingPeriodCount"%string [] 1%N ["Number of vests is zero"%string]); (Variant "InsufficientBalanceToLock"%string [] 2%N ["Insufficient amount of balance to lock"%string]); (Variant "TooManyVestingSchedules"%string [] 3%N ["This account have too many vesting schedules"%string]); (Variant "AmountLow"%string [] 4%N ["The vested transfer amount is too low"%string]); (Variant "MaxVestingSchedulesExceeded"%string [] 5%N ["Failed because the maximum vesting schedules was exceeded"%string])]) ["
			Custom [dispatch errors](https://docs.substrate.io/v3/runtime/events-and-errors)
			of this pallet.
			"%string]).
Definition md_t351 : ty := (Ty ["frame_support"%string; "storage"%string; "bounded_vec"%string; "BoundedVec"%string] [("T"%string,(Some 41%N)); ("S"%string,None)] (TComposite [(Field None 136%N (Some "Vec<T>"%string) [])]) []).
Definition md_t352 : ty := (Ty [] [] (TSequence 136%N) []).
Definition md_t353 : ty := (Ty [] [] (TSequence 354%N) []).
Definition md_t354 : ty := (Ty ["frame_support"%string; "weights"%string; "WeightToFeeCoefficient"%string] [("Balance"%string,(Some 6%N))] (TComposite [(Field (Some "coeff_integer"%string) 6%N (Some "Balance"%string) []); (Field (Some "coeff_frac"%string) 173%N (Some "Perbill"%string) []); (Field (Some "negative"%string) 118%N (Some "bool"%string) []); (Field (Some "degree"%string) 2%N (Some "u8"%string) [])]) []).
Definition md_t355 : ty := (Ty ["module_transaction_payment"%string; "module"%string; "Error"%string] [("T"%string,None)] (TVariant [(Variant "InvalidSwapPath"%string [] 0%N ["The swap path is invalid"%string])]) ["
			Custom [dispatch errors](https://docs.substrate.io/v3/runtime/events-and-errors)
			of this pallet.
			"%string]).
Definition md_t356 : ty := (Ty ["pallet_treasury"%string; "Proposal"%string] [("AccountId"%string,(Some 0%N)); ("Balance"%string,(Some 6%N))] (TComposite [(Field (Some "proposer"%string) 0%N (Some "AccountId"%string) []); (Field (Some "value"%string) 6%N (Some "Balance"%string) []); (Field (Some "beneficiary"%string) 0%N (Some "AccountId"%string) []); (Field (Some "bond"%string) 6%N (Some "Balance"%string) [])]) []).
Definition md_t357 : ty := (Ty ["frame_support"%string; "storage"%string; "bounded_vec"%string; "BoundedVec"%string] [("T"%string,(Some 4%N)); ("S"%string,None)] (TComposite [(Field None 358%N (Some "Vec<T>"%string) [])]) []).
Definition md_t358 : ty := (Ty [] [] (TSequence 4%N) []).
Definition md_t359 : ty := (Ty ["frame_support"%string; "PalletId"%string] [] (TComposite [(Field None 81%N (Some "[u8; 8]"%string) [])]) []).
Definition md_t360 : ty := (Ty ["pallet_treasury"%string; "pallet"%string; "Error"%string] [("T"%string,None); ("I"%string,None)] (TVariant [(Variant "InsufficientProposersBalance"%string [] 0%N ["Proposer's balance is too low."%string]); (Variant "InvalidIndex"%string [] 1%N ["No proposal or bounty at that index."%string]); (Variant "TooManyApprovals"%string [] 2%N ["Too many approvals in the queue."%string])]) ["Error for the treasury pallet."%string]).
Definition md_t361 : ty := (Ty ["pallet_bounties"%string; "Bounty"%string] [("AccountId"%string,(Some 0%N)); ("Balance"%string,(Some 6%N)); ("BlockNumber"%string,(Some 4%N))] (TComposite [(Field (Some "proposer"%string) 0%N (Some "AccountId"%string) []); (Field (Some "value"%string) 6%N (Some "Balance"%string) []); (Field (Some "fee"%string) 6%N (Some "Balance"%string) []); (Field (Some "curator_deposit"%string) 6%N (Some "Balance"%string) []); (Field (Some "bond"%string) 6%N (Some "Balance"%string) []); (Field (Some "status"%string) 362%N (Some "BountyStatus<AccountId, BlockNumber>"%string) [])]) []).
Definition md_t362 : ty := (Ty ["pallet_bounties"%string; "BountyStatus"%string] [("AccountId"%string,(Some 0%N)); ("BlockNumber"%string,(Some 4%N))] (TVariant [(Variant "Proposed"%string [] 0%N []); (Variant "Approved"%string [] 1%N []); (Variant "Funded"%string [] 2%N []); (Variant "CuratorProposed"%string [(Field (Some "curator"%string) 0%N (Some "AccountId"%string) [])] 3%N []); (Variant "Active"%string [(Field (Some "curator"%string) 0%N (Some "AccountId"%string) []); (Field (Some "update_due"%string) 4%N (Some "BlockNumber"%string) [])] 4%N []); (Variant "PendingPayout"%string [(Field (Some "curator"%string) 0%N (Some "AccountId"%string) []); (Field (Some "beneficiary"%string) 0%N (Some "AccountId"%string) []); (Field (Some "unlock_at"%string) 4%N (Some "BlockNumber"%string) [])] 5%N [])]) []).
Definition md_t363 : ty := (Ty ["pallet_bounties"%string; "pallet"%string; "Error"%string] [("T"%string,None)] (TVariant [(Variant "InsufficientProposersBalance"%string [] 0%N ["Proposer's balance is too low."%string]); (Variant "InvalidIndex"%string [] 1%N ["No proposal or bounty at that index."%string]); (Variant "ReasonTooBig"%string [] 2%N ["The reason given is just too big."%string]); (Variant "UnexpectedStatus"%string [] 3%N ["The bounty status is unexpected."%string]); (Variant "RequireCurator"%string [] 4%N ["Require bounty curator."%string]); (Variant "InvalidValue"%string [] 5%N ["Invalid bounty value."%string]); (Variant "InvalidFee"%string [] 6%N ["Invalid bounty fee."%string]); (Variant "PendingPayout"%string [] 7%N ["A bounty payout is pending."%string; "To cancel the bounty, you must unassign and slash the curator."%string]); (Variant "Premature"%string [] 8%N ["The bounties cannot be claimed/closed because it's still in the countdown period."%string])]) ["
			Custom [dispatch errors](https://docs.substrate.io/v3/runtime/events-and-errors)
			of this pallet.
			"%string]).
Definition md_t364 : ty := (Ty ["pallet_tips"%string; "OpenTip"%string] [("AccountId"%string,(Some 0%N)); ("Balance"%string,(Some 6%N)); ("BlockNumber"%string,(Some 4%N)); ("Hash"%string,(Some 9%N))] (TComposite [(Field (Some "reason"%string) 9%N (Some "Hash"%string) []); (Field (Some "who"%string) 0%N (Some "AccountId"%string) []); (Field (Some "finder"%string) 0%N (Some "AccountId"%string) []); (Field (Some "deposit"%string) 6%N (Some "Balance"%string) []); (Field (Some "closes"%string) 261%N (Some "Option<BlockNumber>"%string) []); (Field (Some "tips"%string) 365%N (Some "Vec<(AccountId, Balance)>"%string) []); (Field (Some "finders_fee"%string) 118%N (Some "bool"%string) [])]) []).
Definition md_t365 : ty := (Ty [] [] (TSequence 366%N) []).
Definition md_t366 : ty := (Ty [] [] (TTuple [0%N; 6%N]) []).
Definition md_t367 : ty := (Ty ["sp_arithmetic"%string; "per_things"%string; "Percent"%string] [] (TComposite [(Field None 2%N (Some "u8"%string) [])]) []).
Definition md_t368 : ty := (Ty ["pallet_tips"%string; "pallet"%string; "Error"%string] [("T"%string,None)] (TVariant [(Variant "ReasonTooBig"%string [] 0%N ["The reason given is just too big."%string]); (Variant "AlreadyKnown"%string [] 1%N ["The tip was already found/started."%string]); (Variant "UnknownTip"%string [] 2%N ["The tip hash is unknown."%string]); (Variant "NotFinder"%string [] 3%N ["The account attempting to retract the tip is not the finder of the tip."%string]); (Variant "StillOpen"%string [] 4%N ["The tip cannot be claimed/closed because there are not enough tippers yet."%string]); (Variant "Premature"%string [] 5%N ["The tip cannot be claimed/closed because it's still in the countdown period."%string])]) ["
			Custom [dispatch errors](https://docs.substrate.io/v3/runtime/events-and-errors)
			of this pallet.
			"%string]).
Definition md_t369 : ty := (Ty ["Option"%string] [("T"%string,(Some 370%N))] (TVariant [(Variant "None"%string [] 0%N []); (Variant "Some"%string [(Field None 370%N None [])] 1%N [])]) []).
Definition md_t370 : ty := (Ty ["polkadot_primitives"%string; "v1"%string; "UpgradeRestriction"%string] [] (TVariant [(Variant "Present"%string [] 0%N [])]) []).
Definition md_t371 : ty := (Ty ["cumulus_pallet_parachain_system"%string; "relay_state_snapshot"%string; "MessagingStateSnapshot"%string] [] (TComposite [(Field (Some "dmq_mqc_head"%string) 9%N (Some "relay_chain::Hash"%string) []); (Field (Some "relay_dispatch_queue_size"%string) 26%N (Some "(u32, u32)"%string) []); (Field (Some "ingress_channels"%string) 372%N (Some "Vec<(ParaId, AbridgedHrmpChannel)>"%string) []); (Field (Some "egress_channels"%string) 372%N (Some "Vec<(ParaId, AbridgedHrmpChannel)>"%string) [])]) []).
Definition md_t372 : ty := (Ty [] [] (TSequence 373%N) []).
Definition md_t373 : ty := (Ty [] [] (TTuple [109%N; 374%N]) []).
Definition md_t374 : ty := (Ty ["polkadot_primitives"%string; "v1"%string; "AbridgedHrmpChannel"%string] [] (TComposite [(Field (Some "max_capacity"%string) 4%N (Some "u32"%string) []); (Field (Some "max_total_size"%string) 4%N (Some "u32"%string) []); (Field (Some "max_message_size"%string) 4%N (Some "u32"%string) []); (Field (Some "msg_count"%string) 4%N (Some "u32"%string) []); (Field (Some "total_size"%string) 4%N (Some "u32"%string) []); (Field (Some "mqc_head"%string) 60%N (Some "Option<Hash>"%string) [])]) []).
Definition md_t375 : ty := (Ty ["polkadot_primitives"%string; "v1"%string; "AbridgedHostConfiguration"%string] [] (TComposite [(Field (Some "max_code_size"%string) 4%N (Some "u32"%string) []); (Field (Some "max_head_data_size"%string) 4%N (Some "u32"%string) []); (Field (Some "max_upward_queue_count"%string) 4%N (Some "u32"%string) []); (Field (Some "max_upward_queue_size"%string) 4%N (Some "u32"%string) []); (Field (Some "max_upward_message_size"%string) 4%N (Some "u32"%string) []); (Field (Some "max_upward_message_num_per_candidate"%string) 4%N (Some "u32"%string) []); (Field (Some "hrmp_max_message_num_per_candidate"%string) 4%N (Some "u32"%string) []); (Field (Some "validation_upgrade_frequency"%string) 4%N (Some "BlockNumber"%string) []); (Field (Some "validation_upgrade_delay"%string) 4%N (Some "BlockNumber"%string) [])]) []).
Definition md_t376 : ty := (Ty ["cumulus_pallet_parachain_system"%string; "MessageQueueChain"%string] [] (TComposite [(Field None 9%N (Some "relay_chain::Hash"%string) [])]) []).
Definition md_t377 : ty := (Ty ["BTreeMap"%string] [("K"%string,(Some 109%N)); ("V"%string,(Some 376%N))] (TComposite [(Field None 378%N None [])]) []).
Definition md_t378 : ty := (Ty [] [] (TSequence 379%N) []).
Definition md_t379 : ty := (Ty [] [] (TTuple [109%N; 376%N]) []).
Definition md_t380 : ty := (Ty [] [] (TSequence 381%N) []).
Definition md_t381 : ty := (Ty ["polkadot_core_primitives"%string; "OutboundHrmpMessage"%string] [("Id"%string,(Some 109%N))] (TComposite [(Field (Some "recipient"%string) 109%N (Some "Id"%string) []); (Field (Some "data"%string) 10%N (Some "sp_std::vec::Vec<u8>"%string) [])]) []).
Definition md_t382 : ty := (Ty ["cumulus_pallet_parachain_system"%string; "pallet"%string; "Error"%string] [("T"%string,None)] (TVariant [(Variant "OverlappingUpgrades"%string [] 0%N ["Attempt to upgrade validation function while existing upgrade pending"%string]); (Variant "ProhibitedByPolkadot"%string [] 1%N ["Polkadot currently prohibits this parachain from upgrading its validation function"%string]); (Variant "TooBig"%string [] 2%N ["The supplied validation function has compiled into a blob larger than Polkadot is"%string; "willing to run"%string]); (Variant "ValidationDataNotAvailable"%string [] 3%N ["The inherent which supplies the validation data did not run this block"%string]); (Variant "HostConfigurationNotAvailable"%string [] 4%N ["The inherent which supplies the host configuration did not run this block"%string]); (Variant "NotScheduled"%string [] 5%N ["No validation function upgrade is currently scheduled."%string]); (Variant "NothingAuthorized"%string [] 6%N ["No code upgrade has been authorized."%string]); (Variant "Unauthorized"%string [] 7%N ["The given code upgrade has not been authorized."%string])]) ["
			Custom [dispatch errors](https://docs.substrate.io/v3/runtime/events-and-errors)
			of this pallet.
			"%string]).
Definition md_t383 : ty := (Ty [] [] (TSequence 384%N) []).
Definition md_t384 : ty := (Ty ["pallet_authorship"%string; "UncleEntryItem"%string] [("BlockNumber"%string,(Some 4%N)); ("Hash"%string,(Some 9%N)); ("Author"%string,(Some 0%N))] (TVariant [(Variant "InclusionHeight"%string [(Field None 4%N (Some "BlockNumber"%string) [])] 0%N []); (Variant "Uncle"%string [(Field None 9%N (Some "Hash"%string) []); (Field None 116%N (Some "Option<Author>"%string) [])] 1%N [])]) []).
Definition md_t385 : ty := (Ty ["pallet_authorship"%string; "pallet"%string; "Error"%string] [("T"%string,None)] (TVariant [(Variant "InvalidUncleParent"%string [] 0%N ["The uncle parent not in the chain."%string]); (Variant "UnclesAlreadySet"%string [] 1%N ["Uncles already set in the block."%string]); (Variant "TooManyUncles"%string [] 2%N ["Too many uncles."%string]); (Variant "GenesisUncle"%string [] 3%N ["The uncle is genesis."%string]); (Variant "TooHighUncle"%string [] 4%N ["The uncle is too high in chain."%string]); (Variant "UncleAlreadyIncluded"%string [] 5%N ["The uncle is already included."%string]); (Variant "OldUncle"%string [] 6%N ["The uncle isn't recent enough to be included."%string])]) ["
			Custom [dispatch errors](https://docs.substrate.io/v3/runtime/events-and-errors)
			of this pallet.
			"%string]).
Definition md_t386 : ty := (Ty ["frame_support"%string; "storage"%string; "bounded_vec"%string; "BoundedVec"%string] [("T"%string,(Some 0%N)); ("S"%string,None)] (TComposite [(Field None 56%N (Some "Vec<T>"%string) [])]) []).
Definition md_t387 : ty := (Ty ["frame_support"%string; "storage"%string; "bounded_btree_set"%string; "BoundedBTreeSet"%string] [("T"%string,(Some 0%N)); ("S"%string,None)] (TComposite [(Field None 388%N (Some "BTreeSet<T>"%string) [])]) []).
Definition md_t388 : ty := (Ty ["BTreeSet"%string] [("T"%string,(Some 0%N))] (TComposite [(Field None 56%N None [])]) []).
Definition md_t389 : ty := (Ty ["module_collator_selection"%string; "pallet"%string; "Error"%string] [("T"%string,None)] (TVariant [(Variant "MaxCandidatesExceeded"%string [] 0%N []); (Variant "BelowCandidatesMin"%string [] 1%N []); (Variant "StillLocked"%string [] 2%N []); (Variant "Unknown"%string [] 3%N []); (Variant "Permission"%string [] 4%N []); (Variant "AlreadyCandidate"%string [] 5%N []); (Variant "NotCandidate"%string [] 6%N []); (Variant "NotNonCandidate"%string [] 7%N []); (Variant "NothingToWithdraw"%string [] 8%N []); (Variant "RequireSessionKey"%string [] 9%N []); (Variant "AlreadyInvulnerable"%string [] 10%N []); (Variant "InvalidProof"%string [] 11%N []); (Variant "MaxInvulnerablesExceeded"%string [] 12%N [])]) ["
			Custom [dispatch errors](https://docs.substrate.io/v3/runtime/events-and-errors)
			of this pallet.
			"%string]).
Definition md_t390 : ty := (Ty [] [] (TSequence 391%N) []).
Definition md_t391 : ty := (Ty [] [] (TTuple [0%N; 232%N]) []).
Definition md_t392 : ty := (Ty [] [] (TTuple [393%N; 10%N]) []).
Definition md_t393 : ty := (Ty ["sp_core"%string; "crypto"%string; "KeyTypeId"%string] [] (TComposite [(Field None 14%N (Some "[u8; 4]"%string) [])]) []).
Definition md_t394 : ty := (Ty ["pallet_session"%string; "pallet"%string; "Error"%string] [("T"%string,None)] (TVariant [(Variant "InvalidProof"%string [] 0%N ["Invalid ownership proof."%string]); (Variant "NoAssociatedValidatorId"%string [] 1%N ["No associated validator ID for account."%string]); (Variant "DuplicatedKey"%string [] 2%N ["Registered duplicate key."%string]); (Variant "NoKeys"%string [] 3%N ["No keys are associated with this account."%string]); (Variant "NoAccount"%string [] 4%N ["Key setting account is not live, so it's impossible to associate keys."%string])]) ["Error for the session pallet."%string]).
Definition md_t395 : ty := (Ty ["frame_support"%string; "storage"%string; "weak_bounded_vec"%string; "WeakBoundedVec"%string] [("T"%string,(Some 233%N)); ("S"%string,None)] (TComposite [(Field None 396%N (Some "Vec<T>"%string) [])]) []).
Definition md_t396 : ty := (Ty [] [] (TSequence 233%N) []).
Definition md_t397 : ty := (Ty ["sp_consensus_slots"%string; "Slot"%string] [] (TComposite [(Field None 8%N (Some "u64"%string) [])]) []).
Definition md_t398 : ty := (Ty ["module_session_manager"%string; "module"%string; "Error"%string] [("T"%string,None)] (TVariant [(Variant "InvalidSession"%string [] 0%N ["The session is invalid."%string]); (Variant "InvalidDuration"%string [] 1%N ["The duration is invalid."%string]); (Variant "EstimateNextSessionFailed"%string [] 2%N ["Failed to estimate next session."%string])]) ["
			Custom [dispatch errors](https://docs.substrate.io/v3/runtime/events-and-errors)
			of this pallet.
			"%string]).
Definition md_t399 : ty := (Ty [] [] (TSequence 400%N) []).
Definition md_t400 : ty := (Ty [] [] (TTuple [109%N; 401%N; 402%N]) []).
Definition md_t401 : ty := (Ty ["cumulus_pallet_xcmp_queue"%string; "InboundStatus"%string] [] (TVariant [(Variant "Ok"%string [] 0%N []); (Variant "Suspended"%string [] 1%N [])]) []).
Definition md_t402 : ty := (Ty [] [] (TSequence 403%N) []).
Definition md_t403 : ty := (Ty [] [] (TTuple [4%N; 404%N]) []).
Definition md_t404 : ty := (Ty ["polkadot_parachain"%string; "primitives"%string; "XcmpMessageFormat"%string] [] (TVariant [(Variant "ConcatenatedVersionedXcm"%string [] 0%N []); (Variant "ConcatenatedEncodedBlob"%string [] 1%N []); (Variant "Signals"%string [] 2%N [])]) []).
Definition md_t405 : ty := (Ty [] [] (TTuple [109%N; 4%N]) []).
Definition md_t406 : ty := (Ty [] [] (TSequence 407%N) []).
Definition md_t407 : ty := (Ty [] [] (TTuple [109%N; 408%N; 118%N; 35%N; 35%N]) []).
Definition md_t408 : ty := (Ty ["cumulus_pallet_xcmp_queue"%string; "OutboundStatus"%string] [] (TVariant [(Variant "Ok"%string [] 0%N []); (Variant "Suspended"%string [] 1%N [])]) []).
Definition md_t409 : ty := (Ty [] [] (TTuple [109%N; 35%N]) []).
Definition md_t410 : ty := (Ty ["cumulus_pallet_xcmp_queue"%string; "QueueConfigData"%string] [] (TComposite [(Field (Some "suspend_threshold"%string) 4%N (Some "u32"%string) []); (Field (Some "drop_threshold"%string) 4%N (Some "u32"%string) []); (Field (Some "resume_threshold"%string) 4%N (Some "u32"%string) []); (Field (Some "threshold_weight"%string) 8%N (Some "Weight"%string) []); (Field (Some "weight_restrict_decay"%string) 8%N (Some "Weight"%string) [])]) []).
Definition md_t411 : ty := (Ty ["cumulus_pallet_xcmp_queue"%string; "pallet"%string; "Error"%string] [("T"%string,None)] (TVariant [(Variant "FailedToSend"%string [] 0%N ["Failed to send XCM message."%string]); (Variant "BadXcmOrigin"%string [] 1%N ["Bad XCM origin."%string]); (Variant "BadXcm"%string [] 2%N ["Bad XCM data."%string])]) ["
			Custom [dispatch errors](https://docs.substrate.io/v3/runtime/events-and-errors)
			of this pallet.
			"%string]).
Definition md_t412 : ty := (Ty ["pallet_xcm"%string; "pallet"%string; "QueryStatus"%string] [("BlockNumber"%string,(Some 4%N))] (TVariant [(Variant "Pending"%string [(Field (Some "responder"%string) 98%N (Some "VersionedMultiLocation"%string) []); (Field (Some "maybe_notify"%string) 413%N (Some "Option<(u8, u8)>"%string) []); (Field (Some "timeout"%string) 4%N (Some "BlockNumber"%string) [])] 0%N []); (Variant "VersionNotifier"%string [(Field (Some "origin"%string) 98%N (Some "VersionedMultiLocation"%string) []); (Field (Some "is_active"%string) 118%N (Some "bool"%string) [])] 1%N []); (Variant "Ready"%string [(Field (Some "response"%string) 415%N (Some "VersionedResponse"%string) []); (Field (Some "at"%string) 4%N (Some "BlockNumber"%string) [])] 2%N [])]) []).
Definition md_t413 : ty := (Ty ["Option"%string] [("T"%string,(Some 414%N))] (TVariant [(Variant "None"%string [] 0%N []); (Variant "Some"%string [(Field None 414%N None [])] 1%N [])]) []).
Definition md_t414 : ty := (Ty [] [] (TTuple [2%N; 2%N]) []).
Definition md_t415 : ty := (Ty ["xcm"%string; "VersionedResponse"%string] [] (TVariant [(Variant "V0"%string [(Field None 242%N (Some "v0::Response"%string) [])] 0%N []); (Variant "V1"%string [(Field None 247%N (Some "v1::Response"%string) [])] 1%N []); (Variant "V2"%string [(Field None 83%N (Some "v2::Response"%string) [])] 2%N [])]) []).
Definition md_t416 : ty := (Ty [] [] (TTuple [4%N; 98%N]) []).
Definition md_t417 : ty := (Ty [] [] (TTuple [8%N; 8%N; 4%N]) []).
Definition md_t418 : ty := (Ty ["frame_support"%string; "storage"%string; "bounded_vec"%string; "BoundedVec"%string] [("T"%string,(Some 419%N)); ("S"%string,None)] (TComposite [(Field None 420%N (Some "Vec<T>"%string) [])]) []).
Definition md_t419 : ty := (Ty [] [] (TTuple [98%N; 4%N]) []).
Definition md_t420 : ty := (Ty [] [] (TSequence 419%N) []).
Definition md_t421 : ty := (Ty ["pallet_xcm"%string; "pallet"%string; "VersionMigrationStage"%string] [] (TVariant [(Variant "MigrateSupportedVersion"%string [] 0%N []); (Variant "MigrateVersionNotifiers"%string [] 1%N []); (Variant "NotifyCurrentTargets"%string [(Field None 27%N (Some "Option<Vec<u8>>"%string) [])] 2%N []); (Variant "MigrateAndNotifyOldTargets"%string [] 3%N [])]) []).
Definition md_t422 : ty := (Ty ["pallet_xcm"%string; "pallet"%string; "Error"%string] [("T"%string,None)] (TVariant [(Variant "Unreachable"%string [] 0%N ["The desired destination was unreachable, generally because there is a no way of routing"%string; "to it."%string]); (Variant "SendFailure"%string [] 1%N ["There was some other issue (i.e. not to do with routing) in sending the message. Perhaps"%string; "a lack of space for buffering the message."%string]); (Variant "Filtered"%string [] 2%N ["The message execution fails the filter."%string]); (Variant "UnweighableMessage"%string [] 3%N ["The message's weight could not be determined."%string]); (Variant "DestinationNotInvertible"%string [] 4%N ["The destination `MultiLocation` provided cannot be inverted."%string]); (Variant "Empty"%string [] 5%N ["The assets to be sent are empty."%string]); (Variant "CannotReanchor"%string [] 6%N ["Could not re-anchor the assets to declare the fees for the destination chain."%string]); (Variant "TooManyAssets"%string [] 7%N ["Too many assets have been attempted for transfer."%string]); (Variant "InvalidOrigin"%string [] 8%N ["Origin is invalid for sending."%string]); (Variant "BadVersion"%string [] 9%N ["The version of the `Versioned` value used is not able to be interpreted."%string]); (Variant "BadLocation"%string [] 10%N ["The given location could not be used (e.g. because it cannot be expressed in the"%string; "desired version of XCM)."%string]); (Variant "NoSubscription"%string [] 11%N ["The referenced subscription could not be found."%string]); (Variant "AlreadySubscribed"%string [] 12%N ["The location is invalid since it already has a subscription from us."%string])]) ["
			Custom [dispatch errors](https://docs.substrate.io/v3/runtime/events-and-errors)
			of this pallet.
			"%string]).
Definition md_t423 : ty := (Ty ["cumulus_pallet_xcm"%string; "pallet"%string; "Error"%string] [("T"%string,None)] (TVariant []) ["
			Custom [dispatch errors](https://docs.substrate.io/v3/runtime/events-and-errors)
			of this pallet.
			"%string]).
Definition md_t424 : ty := (Ty ["cumulus_pallet_dmp_queue"%string; "ConfigData"%string] [] (TComposite [(Field (Some "max_individual"%string) 8%N (Some "Weight"%string) [])]) []).
Definition md_t425 : ty := (Ty ["cumulus_pallet_dmp_queue"%string; "PageIndexData"%string] [] (TComposite [(Field (Some "begin_used"%string) 4%N (Some "PageCounter"%string) []); (Field (Some "end_used"%string) 4%N (Some "PageCounter"%string) []); (Field (Some "overweight_count"%string) 8%N (Some "OverweightIndex"%string) [])]) []).
Definition md_t426 : ty := (Ty [] [] (TSequence 427%N) []).
Definition md_t427 : ty := (Ty [] [] (TTuple [4%N; 10%N]) []).
Definition md_t428 : ty := (Ty ["cumulus_pallet_dmp_queue"%string; "pallet"%string; "Error"%string] [("T"%string,None)] (TVariant [(Variant "Unknown"%string [] 0%N ["The message index given is unknown."%string]); (Variant "OverLimit"%string [] 1%N ["The amount of weight given is possibly not enough for executing the message."%string])]) ["
			Custom [dispatch errors](https://docs.substrate.io/v3/runtime/events-and-errors)
			of this pallet.
			"%string]).
Definition md_t429 : ty := (Ty ["orml_xtokens"%string; "module"%string; "Error"%string] [("T"%string,None)] (TVariant [(Variant "AssetHasNoReserve"%string [] 0%N ["Asset has no reserve location."%string]); (Variant "NotCrossChainTransfer"%string [] 1%N ["Not cross-chain transfer."%string]); (Variant "InvalidDest"%string [] 2%N ["Invalid transfer destination."%string]); (Variant "NotCrossChainTransferableCurrency"%string [] 3%N ["Currency is not cross-chain transferable."%string]); (Variant "UnweighableMessage"%string [] 4%N ["The message's weight could not be determined."%string]); (Variant "XcmExecutionFailed"%string [] 5%N ["XCM execution failed."%string]); (Variant "CannotReanchor"%string [] 6%N ["Could not re-anchor the assets to declare the fees for the"%string; "destination chain."%string]); (Variant "InvalidAncestry"%string [] 7%N ["Could not get ancestry of asset reserve location."%string]); (Variant "NotFungible"%string [] 8%N ["Not fungible asset."%string]); (Variant "DestinationNotInvertible"%string [] 9%N ["The destination `MultiLocation` provided cannot be inverted."%string]); (Variant "BadVersion"%string [] 10%N ["The version of the `Versioned` value used is not able to be"%string; "interpreted."%string]); (Variant "DistincAssetAndFeeId"%string [] 11%N ["The fee MultiAsset is of different type than the asset to transfer."%string]); (Variant "FeeCannotBeZero"%string [] 12%N ["The fee amount was zero when the fee specification extrinsic is"%string; "being used."%string])]) ["
			Custom [dispatch errors](https://docs.substrate.io/v3/runtime/events-and-errors)
			of this pallet.
			"%string]).
Definition md_t430 : ty := (Ty [] [] (TTuple [64%N; 64%N]) []).
Definition md_t431 : ty := (Ty [] [] (TTuple [64%N; 10%N]) []).
Definition md_t432 : ty := (Ty ["orml_unknown_tokens"%string; "module"%string; "Error"%string] [("T"%string,None)] (TVariant [(Variant "BalanceTooLow"%string [] 0%N ["The balance is too low."%string]); (Variant "BalanceOverflow"%string [] 1%N ["The operation will cause balance to overflow."%string]); (Variant "UnhandledAsset"%string [] 2%N ["Unhandled asset."%string])]) ["
			Custom [dispatch errors](https://docs.substrate.io/v3/runtime/events-and-errors)
			of this pallet.
			"%string]).
Definition md_t433 : ty := (Ty ["orml_xcm"%string; "module"%string; "Error"%string] [("T"%string,None)] (TVariant [(Variant "Unreachable"%string [] 0%N ["The message and destination combination was not recognized as being"%string; "reachable."%string]); (Variant "SendFailure"%string [] 1%N ["The message and destination was recognized as being reachable but"%string; "the operation could not be completed."%string]); (Variant "BadVersion"%string [] 2%N ["The version of the `Versioned` value used is not able to be"%string; "interpreted."%string])]) ["
			Custom [dispatch errors](https://docs.substrate.io/v3/runtime/events-and-errors)
			of this pallet.
			"%string]).
Definition md_t434 : ty := (Ty [] [] (TTuple [193%N; 116%N]) []).
Definition md_t435 : ty := (Ty ["orml_authority"%string; "module"%string; "Error"%string] [("T"%string,None)] (TVariant [(Variant "FailedToSchedule"%string [] 0%N ["Failed to schedule a task."%string]); (Variant "FailedToCancel"%string [] 1%N ["Failed to cancel a task."%string]); (Variant "FailedToFastTrack"%string [] 2%N ["Failed to fast track a task."%string]); (Variant "FailedToDelay"%string [] 3%N ["Failed to delay a task."%string]); (Variant "CallNotAuthorized"%string [] 4%N ["Call is not authorized."%string]); (Variant "TriggerCallNotPermitted"%string [] 5%N ["Triggering the call is not permitted."%string]); (Variant "WrongCallWeightBound"%string [] 6%N ["Call weight bound is wrong."%string])]) ["
			Custom [dispatch errors](https://docs.substrate.io/v3/runtime/events-and-errors)
			of this pallet.
			"%string]).
Definition md_t436 : ty := (Ty ["frame_support"%string; "storage"%string; "bounded_vec"%string; "BoundedVec"%string] [("T"%string,(Some 9%N)); ("S"%string,None)] (TComposite [(Field None 159%N (Some "Vec<T>"%string) [])]) []).
Definition md_t437 : ty := (Ty ["pallet_collective"%string; "Votes"%string] [("AccountId"%string,(Some 0%N)); ("BlockNumber"%string,(Some 4%N))] (TComposite [(Field (Some "index"%string) 4%N (Some "ProposalIndex"%string) []); (Field (Some "threshold"%string) 4%N (Some "MemberCount"%string) []); (Field (Some "ayes"%string) 56%N (Some "Vec<AccountId>"%string) []); (Field (Some "nays"%string) 56%N (Some "Vec<AccountId>"%string) []); (Field (Some "end"%string) 4%N (Some "BlockNumber"%string) [])]) []).
Definition md_t438 : ty := (Ty ["pallet_collective"%string; "pallet"%string; "Error"%string] [("T"%string,None); ("I"%string,None)] (TVariant [(Variant "NotMember"%string [] 0%N ["Account is not a member"%string]); (Variant "DuplicateProposal"%string [] 1%N ["Duplicate proposals not allowed"%string]); (Variant "ProposalMissing"%string [] 2%N ["Proposal must exist"%string]); (Variant "WrongIndex"%string [] 3%N ["Mismatched index"%string]); (Variant "DuplicateVote"%string [] 4%N ["Duplicate vote ignored"%string]); (Variant "AlreadyInitialized"%string [] 5%N ["Members are already initialized!"%string]); (Variant "TooEarly"%string [] 6%N ["The close call was made too early, before the end of the voting."%string]); (Variant "TooManyProposals"%string [] 7%N ["There can only be a maximum of `MaxProposals` active proposals."%string]); (Variant "WrongProposalWeight"%string [] 8%N ["The given weight bound for the proposal was too low."%string]); (Variant "WrongProposalLength"%string [] 9%N ["The given length bound for the proposal was too low."%string])]) ["
			Custom [dispatch errors](https://docs.substrate.io/v3/runtime/events-and-errors)
			of this pallet.
			"%string]).
Definition md_t439 : ty := (Ty ["pallet_membership"%string; "pallet"%string; "Error"%string] [("T"%string,None); ("I"%string,None)] (TVariant [(Variant "AlreadyMember"%string [] 0%N ["Already a member."%string]); (Variant "NotMember"%string [] 1%N ["Not a member."%string])]) ["
			Custom [dispatch errors](https://docs.substrate.io/v3/runtime/events-and-errors)
			of this pallet.
			"%string]).
Definition md_t440 : ty := (Ty ["frame_support"%string; "storage"%string; "bounded_vec"%string; "BoundedVec"%string] [("T"%string,(Some 9%N)); ("S"%string,None)] (TComposite [(Field None 159%N (Some "Vec<T>"%string) [])]) []).
Definition md_t441 : ty := (Ty ["pallet_collective"%string; "pallet"%string; "Error"%string] [("T"%string,None); ("I"%string,None)] (TVariant [(Variant "NotMember"%string [] 0%N ["Account is not a member"%string]); (Variant "DuplicateProposal"%string [] 1%N ["Duplicate proposals not allowed"%string]); (Variant "ProposalMissing"%string [] 2%N ["Proposal must exist"%string]); (Variant "WrongIndex"%string [] 3%N ["Mismatched index"%string]); (Variant "DuplicateVote"%string [] 4%N ["Duplicate vote ignored"%string]); (Variant "AlreadyInitialized"%string [] 5%N ["Members are already initialized!"%string]); (Variant "TooEarly"%string [] 6%N ["The close call was made too early, before the end of the voting."%string]); (Variant "TooManyProposals"%string [] 7%N ["There can only be a maximum of `MaxProposals` active proposals."%string]); (Variant "WrongProposalWeight"%string [] 8%N ["The given weight bound for the proposal was too low."%string]); (Variant "WrongProposalLength"%string [] 9%N ["The given length bound for the proposal was too low."%string])]) ["
			Custom [dispatch errors](https://docs.substrate.io/v3/runtime/events-and-errors)
			of this pallet.
			"%string]).
Definition md_t442 : ty := (Ty ["pallet_membership"%string; "pallet"%string; "Error"%string] [("T"%string,None); ("I"%string,None)] (TVariant [(Variant "AlreadyMember"%string [] 0%N ["Already a member."%string]); (Variant "NotMember"%string [] 1%N ["Not a member."%string])]) ["
			Custom [dispatch errors](https://docs.substrate.io/v3/runtime/events-and-errors)
			of this pallet.
			"%string]).
Definition md_t443 : ty := (Ty ["frame_support"%string; "storage"%string; "bounded_vec"%string; "BoundedVec"%string] [("T"%string,(Some 9%N)); ("S"%string,None)] (TComposite [(Field None 159%N (Some "Vec<T>"%string) [])]) []).
Definition md_t444 : ty := (Ty ["pallet_collective"%string; "pallet"%string; "Error"%string] [("T"%string,None); ("I"%string,None)] (TVariant [(Variant "NotMember"%string [] 0%N ["Account is not a member"%string]); (Variant "DuplicateProposal"%string [] 1%N ["Duplicate proposals not allowed"%string]); (Variant "ProposalMissing"%string [] 2%N ["Proposal must exist"%string]); (Variant "WrongIndex"%string [] 3%N ["Mismatched index"%string]); (Variant "DuplicateVote"%string [] 4%N ["Duplicate vote ignored"%string]); (Variant "AlreadyInitialized"%string [] 5%N ["Members are already initialized!"%string]); (Variant "TooEarly"%string [] 6%N ["The close call was made too early, before the end of the voting."%string]); (Variant "TooManyProposals"%string [] 7%N ["There can only be a maximum of `MaxProposals` active proposals."%string]); (Variant "WrongProposalWeight"%string [] 8%N ["The given weight bound for the proposal was too low."%string]); (Variant "WrongProposalLength"%string [] 9%N ["The given length bound for the proposal was too low."%string])]) ["
			Custom [dispatch errors](https://docs.substrate.io/v3/runtime/events-and-errors)
			of this pallet.
			"%string]).
Definition md_t445 : ty := (Ty ["pallet_membership"%string; "pallet"%string; "Error"%string] [("T"%string,None); ("I"%string,None)] (TVariant [(Variant "AlreadyMember"%string [] 0%N ["Already a member."%string]); (Variant "NotMember"%string [] 1%N ["Not a member."%string])]) ["
			Custom [dispatch errors](https://docs.substrate.io/v3/runtime/events-and-errors)
			of this pallet.
			"%string]).
Definition md_t446 : ty := (Ty ["frame_support"%string; "storage"%string; "bounded_vec"%string; "BoundedVec"%string] [("T"%string,(Some 9%N)); ("S"%string,None)] (TComposite [(Field None 159%N (Some "Vec<T>"%string) [])]) []).
Definition md_t447 : ty := (Ty ["pallet_collective"%string; "pallet"%string; "Error"%string] [("T"%string,None); ("I"%string,None)] (TVariant [(Variant "NotMember"%string [] 0%N ["Account is not a member"%string]); (Variant "DuplicateProposal"%string [] 1%N ["Duplicate proposals not allowed"%string]); (Variant "ProposalMissing"%string [] 2%N ["Proposal must exist"%string]); (Variant "WrongIndex"%string [] 3%N ["Mismatched index"%string]); (Variant "DuplicateVote"%string [] 4%N ["Duplicate vote ignored"%string]); (Variant "AlreadyInitialized"%string [] 5%N ["Members are already initialized!"%string]); (Variant "TooEarly"%string [] 6%N ["The close call was made too early, before the end of the voting."%string]); (Variant "TooManyProposals"%string [] 7%N ["There can only be a maximum of `MaxProposals` active proposals."%string]); (Variant "WrongProposalWeight"%string [] 8%N ["The given weight bound for the proposal was too low."%string]); (Variant "WrongProposalLength"%string [] 9%N ["The given length bound for the proposal was too low."%string])]) ["
			Custom [dispatch errors](https://docs.substrate.io/v3/runtime/events-and-errors)
			of this pallet.
			"%string]).
Definition md_t448 : ty := (Ty ["pallet_membership"%string; "pallet"%string; "Error"%string] [("T"%string,None); ("I"%string,None)] (TVariant [(Variant "AlreadyMember"%string [] 0%N ["Already a member."%string]); (Variant "NotMember"%string [] 1%N ["Not a member."%string])]) ["
			Custom [dispatch errors](https://docs.substrate.io/v3/runtime/events-and-errors)
			of this pallet.
			"%string]).
Definition md_t449 : ty := (Ty [] [] (TSequence 450%N) []).
Definition md_t450 : ty := (Ty [] [] (TTuple [4%N; 9%N; 0%N]) []).
Definition md_t451 : ty := (Ty [] [] (TTuple [56%N; 6%N]) []).
Definition md_t452 : ty := (Ty ["pallet_democracy"%string; "PreimageStatus"%string] [("AccountId"%string,(Some 0%N)); ("Balance"%string,(Some 6%N)); ("BlockNumber"%string,(Some 4%N))] (TVariant [(Variant "Missing"%string [(Field None 4%N (Some "BlockNumber"%string) [])] 0%N []); (Variant "Available"%string [(Field (Some "data"%string) 10%N (Some "Vec<u8>"%string) []); (Field (Some "provider"%string) 0%N (Some "AccountId"%string) []); (Field (Some "deposit"%string) 6%N (Some "Balance"%string) []); (Field (Some "since"%string) 4%N (Some "BlockNumber"%string) []); (Field (Some "expiry"%string) 261%N (Some "Option<BlockNumber>"%string) [])] 1%N [])]) []).
Definition md_t453 : ty := (Ty ["pallet_democracy"%string; "types"%string; "ReferendumInfo"%string] [("BlockNumber"%string,(Some 4%N)); ("Hash"%string,(Some 9%N)); ("Balance"%string,(Some 6%N))] (TVariant [(Variant "Ongoing"%string [(Field None 454%N (Some "ReferendumStatus<BlockNumber, Hash, Balance>"%string) [])] 0%N []); (Variant "Finished"%string [(Field (Some "approved"%string) 118%N (Some "bool"%string) []); (Field (Some "end"%string) 4%N (Some "BlockNumber"%string) [])] 1%N [])]) []).
Definition md_t454 : ty := (Ty ["pallet_democracy"%string; "types"%string; "ReferendumStatus"%string] [("BlockNumber"%string,(Some 4%N)); ("Hash"%string,(Some 9%N)); ("Balance"%string,(Some 6%N))] (TComposite [(Field (Some "end"%string) 4%N (Some "BlockNumber"%string) []); (Field (Some "proposal_hash"%string) 9%N (Some "Hash"%string) []); (Field (Some "threshold"%string) 127%N (Some "VoteThreshold"%string) []); (Field (Some "delay"%string) 4%N (Some "BlockNumber"%string) []); (Field (Some "tally"%string) 455%N (Some "Tally<Balance>"%string) [])]) []).
Definition md_t455 : ty := (Ty ["pallet_democracy"%string; "types"%string; "Tally"%string] [("Balance"%string,(Some 6%N))] (TComposite [(Field (Some "ayes"%string) 6%N (Some "Balance"%string) []); (Field (Some "nays"%string) 6%N (Some "Balance"%string) []); (Field (Some "turnout"%string) 6%N (Some "Balance"%string) [])]) []).
Definition md_t456 : ty := (Ty ["pallet_democracy"%string; "vote"%string; "Voting"%string] [("Balance"%string,(Some 6%N)); ("AccountId"%string,(Some 0%N)); ("BlockNumber"%string,(Some 4%N))] (TVariant [(Variant "Direct"%string [(Field (Some "votes"%string) 457%N (Some "Vec<(ReferendumIndex, AccountVote<Balance>)>"%string) []); (Field (Some "delegations"%string) 459%N (Some "Delegations<Balance>"%string) []); (Field (Some "prior"%string) 460%N (Some "PriorLock<BlockNumber, Balance>"%string) [])] 0%N []); (Variant "Delegating"%string [(Field (Some "balance"%string) 6%N (Some "Balance"%string) []); (Field (Some "target"%string) 0%N (Some "AccountId"%string) []); (Field (Some "conviction"%string) 280%N (Some "Conviction"%string) []); (Field (Some "delegations"%string) 459%N (Some "Delegations<Balance>"%string) []); (Field (Some "prior"%string) 460%N (Some "PriorLock<BlockNumber, Balance>"%string) [])] 1%N [])]) []).
Definition md_t457 : ty := (Ty [] [] (TSequence 458%N) []).
Definition md_t458 : ty := (Ty [] [] (TTuple [4%N; 278%N]) []).
Definition md_t459 : ty := (Ty ["pallet_democracy"%string; "types"%string; "Delegations"%string] [("Balance"%string,(Some 6%N))] (TComposite [(Field (Some "votes"%string) 6%N (Some "Balance"%string) []); (Field (Some "capital"%string) 6%N (Some "Balance"%string) [])]) []).
Definition md_t460 : ty := (Ty ["pallet_democracy"%string; "vote"%string; "PriorLock"%string] [("BlockNumber"%string,(Some 4%N)); ("Balance"%string,(Some 6%N))] (TComposite [(Field None 4%N (Some "BlockNumber"%string) []); (Field None 6%N (Some "Balance"%string) [])]) []).
Definition md_t461 : ty := (Ty [] [] (TTuple [9%N; 127%N]) []).
Definition md_t462 : ty := (Ty [] [] (TTuple [4%N; 56%N]) []).
Definition md_t463 : ty := (Ty ["pallet_democracy"%string; "Releases"%string] [] (TVariant [(Variant "V1"%string [] 0%N [])]) []).
Definition md_t464 : ty := (Ty ["pallet_democracy"%string; "pallet"%string; "Error"%string] [("T"%string,None)] (TVariant [(Variant "ValueLow"%string [] 0%N ["Value too low"%string]); (Variant "ProposalMissing"%string [] 1%N ["Proposal does not exist"%string]); (Variant "AlreadyCanceled"%string [] 2%N ["Cannot cancel the same proposal twice"%string]); (Variant "DuplicateProposal"%string [] 3%N ["Proposal already made"%string]); (Variant "ProposalBlacklisted"%string [] 4%N ["Proposal still blacklisted"%string]); (Variant "NotSimpleMajority"%string [] 5%N ["Next external proposal not simple majority"%string]); (Variant "InvalidHash"%string [] 6%N ["Invalid hash"%string]); (Variant "NoProposal"%string [] 7%N ["No external proposal"%string]); (Variant "AlreadyVetoed"%string [] 8%N ["Identity may not veto a proposal twice"%string]); (Variant "DuplicatePreimage"%string [] 9%N ["Preimage already noted"%string]); (Variant "NotImminent"%string [] 10%N ["Not imminent"%string]); (Variant "TooEarly"%string [] 11%N ["Too early"%string]); (Variant "Imminent"%string [] 12%N ["Imminent"%string]); (Variant "PreimageMissing"%string [] 13%N ["Preimage not found"%string]); (Variant "ReferendumInvalid"%string [] 14%N ["Vote given for invalid referendum"%string]); (Variant "PreimageInvalid"%string [] 15%N ["Invalid preimage"%string]); (Variant "NoneWaiting"%string [] 16%N ["No proposals waiting"%string]); (Variant "NotVoter"%string [] 17%N ["The given account did not vote on the referendum."%string]); (Variant "NoPermission"%string [] 18%N ["The actor has no permission to conduct the action."%string]); (Variant "AlreadyDelegating"%string [] 19%N ["The account is already delegating."%string]); (Variant "InsufficientFunds"%string [] 20%N ["Too high a balance was provided that the account cannot afford."%string]); (Variant "NotDelegating"%string [] 21%N ["The account is not currently delegating."%string]); (Variant "VotesExist"%string [] 22%N ["The account currently has votes attached to it and the operation cannot succeed until"%string; "these are removed, either through `unvote` or `reap_vote`."%string]); (Variant "InstantNotAllowed"%string [] 23%N ["The instant referendum origin is currently disallowed."%string]); (Variant "Nonsense"%string [] 24%N ["Delegation to oneself makes no sense."%string]); (Variant "WrongUpperBound"%string [] 25%N ["Invalid upper bound."%string]); (Variant "MaxVotesReached"%string [] 26%N ["Maximum number of votes reached."%string]); (Variant "TooManyProposals"%string [] 27%N ["Maximum number of proposals reached."%string])]) ["
			Custom [dispatch errors](https://docs.substrate.io/v3/runtime/events-and-errors)
			of this pallet.
			"%string]).
Definition md_t465 : ty := (Ty ["orml_oracle"%string; "module"%string; "TimestampedValue"%string] [("Value"%string,(Some 131%N)); ("Moment"%string,(Some 8%N))] (TComposite [(Field (Some "value"%string) 131%N (Some "Value"%string) []); (Field (Some "timestamp"%string) 8%N (Some "Moment"%string) [])]) []).
Definition md_t466 : ty := (Ty ["orml_utilities"%string; "ordered_set"%string; "OrderedSet"%string] [("T"%string,(Some 0%N)); ("S"%string,None)] (TComposite [(Field None 467%N (Some "BoundedVec<T, S>"%string) [])]) []).
Definition md_t467 : ty := (Ty ["frame_support"%string; "storage"%string; "bounded_vec"%string; "BoundedVec"%string] [("T"%string,(Some 0%N)); ("S"%string,None)] (TComposite [(Field None 56%N (Some "Vec<T>"%string) [])]) []).
Definition md_t468 : ty := (Ty ["orml_oracle"%string; "module"%string; "Error"%string] [("T"%string,None); ("I"%string,None)] (TVariant [(Variant "NoPermission"%string [] 0%N ["Sender does not have permission"%string]); (Variant "AlreadyFeeded"%string [] 1%N ["Feeder has already feeded at this block"%string])]) ["
			Custom [dispatch errors](https://docs.substrate.io/v3/runtime/events-and-errors)
			of this pallet.
			"%string]).
Definition md_t469 : ty := (Ty ["pallet_membership"%string; "pallet"%string; "Error"%string] [("T"%string,None); ("I"%string,None)] (TVariant [(Variant "AlreadyMember"%string [] 0%N ["Already a member."%string]); (Variant "NotMember"%string [] 1%N ["Not a member."%string])]) ["
			Custom [dispatch errors](https://docs.substrate.io/v3/runtime/events-and-errors)
			of this pallet.
			"%string]).
Definition md_t470 : ty := (Ty ["orml_traits"%string; "auction"%string; "AuctionInfo"%string] [("AccountId"%string,(Some 0%N)); ("Balance"%string,(Some 6%N)); ("BlockNumber"%string,(Some 4%N))] (TComposite [(Field (Some "bid"%string) 471%N (Some "Option<(AccountId, Balance)>"%string) []); (Field (Some "start"%string) 4%N (Some "BlockNumber"%string) []); (Field (Some "end"%string) 261%N (Some "Option<BlockNumber>"%string) [])]) []).
Definition md_t471 : ty := (Ty ["Option"%string] [("T"%string,(Some 366%N))] (TVariant [(Variant "None"%string [] 0%N []); (Variant "Some"%string [(Field None 366%N None [])] 1%N [])]) []).
Definition md_t472 : ty := (Ty ["orml_auction"%string; "module"%string; "Error"%string] [("T"%string,None)] (TVariant [(Variant "AuctionNotExist"%string [] 0%N []); (Variant "AuctionNotStarted"%string [] 1%N []); (Variant "BidNotAccepted"%string [] 2%N []); (Variant "InvalidBidPrice"%string [] 3%N []); (Variant "NoAvailableAuctionId"%string [] 4%N [])]) ["
			Custom [dispatch errors](https://docs.substrate.io/v3/runtime/events-and-errors)
			of this pallet.
			"%string]).
Definition md_t473 : ty := (Ty ["orml_rewards"%string; "PoolInfo"%string] [("Share"%string,(Some 6%N)); ("Balance"%string,(Some 6%N)); ("CurrencyId"%string,(Some 41%N))] (TComposite [(Field (Some "total_shares"%string) 6%N (Some "Share"%string) []); (Field (Some "rewards"%string) 474%N (Some "BTreeMap<CurrencyId, (Balance, Balance)>"%string) [])]) []).
Definition md_t474 : ty := (Ty ["BTreeMap"%string] [("K"%string,(Some 41%N)); ("V"%string,(Some 475%N))] (TComposite [(Field None 476%N None [])]) []).
Definition md_t475 : ty := (Ty [] [] (TTuple [6%N; 6%N]) []).
Definition md_t476 : ty := (Ty [] [] (TSequence 477%N) []).
Definition md_t477 : ty := (Ty [] [] (TTuple [41%N; 475%N]) []).
Definition md_t478 : ty := (Ty [] [] (TTuple [152%N; 0%N]) []).
Definition md_t479 : ty := (Ty [] [] (TTuple [6%N; 480%N]) []).
Definition md_t480 : ty := (Ty ["BTreeMap"%string] [("K"%string,(Some 41%N)); ("V"%string,(Some 6%N))] (TComposite [(Field None 147%N None [])]) []).
Definition md_t481 : ty := (Ty ["orml_rewards"%string; "module"%string; "Error"%string] [("T"%string,None)] (TVariant [(Variant "PoolDoesNotExist"%string [] 0%N ["Pool does not exist"%string])]) ["
			Custom [dispatch errors](https://docs.substrate.io/v3/runtime/events-and-errors)
			of this pallet.
			"%string]).
Definition md_t482 : ty := (Ty ["orml_nft"%string; "ClassInfo"%string] [("TokenId"%string,(Some 8%N)); ("AccountId"%string,(Some 0%N)); ("Data"%string,(Some 483%N)); ("ClassMetadataOf"%string,(Some 484%N))] (TComposite [(Field (Some "metadata"%string) 484%N (Some "ClassMetadataOf"%string) []); (Field (Some "total_issuance"%string) 8%N (Some "TokenId"%string) []); (Field (Some "owner"%string) 0%N (Some "AccountId"%string) []); (Field (Some "data"%string) 483%N (Some "Data"%string) [])]) []).
Definition md_t483 : ty := (Ty ["module_nft"%string; "ClassData"%string] [("Balance"%string,(Some 6%N))] (TComposite [(Field (Some "deposit"%string) 6%N (Some "Balance"%string) []); (Field (Some "properties"%string) 304%N (Some "Properties"%string) []); (Field (Some "attributes"%string) 306%N (Some "Attributes"%string) [])]) []).
Definition md_t484 : ty := (Ty ["frame_support"%string; "storage"%string; "bounded_vec"%string; "BoundedVec"%string] [("T"%string,(Some 2%N)); ("S"%string,None)] (TComposite [(Field None 10%N (Some "Vec<T>"%string) [])]) []).
Definition md_t485 : ty := (Ty ["orml_nft"%string; "TokenInfo"%string] [("AccountId"%string,(Some 0%N)); ("Data"%string,(Some 486%N)); ("TokenMetadataOf"%string,(Some 487%N))] (TComposite [(Field (Some "metadata"%string) 487%N (Some "TokenMetadataOf"%string) []); (Field (Some "owner"%string) 0%N (Some "AccountId"%string) []); (Field (Some "data"%string) 486%N (Some "Data"%string) [])]) []).
Definition md_t486 : ty := (Ty ["module_nft"%string; "TokenData"%string] [("Balance"%string,(Some 6%N))] (TComposite [(Field (Some "deposit"%string) 6%N (Some "Balance"%string) []); (Field (Some "attributes"%string) 306%N (Some "Attributes"%string) [])]) []).
Definition md_t487 : ty := (Ty ["frame_support"%string; "storage"%string; "bounded_vec"%string; "BoundedVec"%string] [("T"%string,(Some 2%N)); ("S"%string,None)] (TComposite [(Field None 10%N (Some "Vec<T>"%string) [])]) []).
Definition md_t488 : ty := (Ty [] [] (TTuple [0%N; 4%N; 8%N]) []).
Definition md_t489 : ty := (Ty ["orml_nft"%string; "module"%string; "Error"%string] [("T"%string,None)] (TVariant [(Variant "NoAvailableClassId"%string [] 0%N ["No available class ID"%string]); (Variant "NoAvailableTokenId"%string [] 1%N ["No available token ID"%string]); (Variant "TokenNotFound"%string [] 2%N ["Token(ClassId, TokenId) not found"%string]); (Variant "ClassNotFound"%string [] 3%N ["Class not found"%string]); (Variant "NoPermission"%string [] 4%N ["The operator is not the owner of the token and has no permission"%string]); (Variant "CannotDestroyClass"%string [] 5%N ["Can not destroy class"%string; "Total issuance is not 0"%string]); (Variant "MaxMetadataExceeded"%string [] 6%N ["Failed because the Maximum amount of metadata was exceeded"%string])]) ["Error for non-fungible-token module."%string]).
Definition md_t490 : ty := (Ty ["module_prices"%string; "module"%string; "Error"%string] [("T"%string,None)] (TVariant [(Variant "AccessPriceFailed"%string [] 0%N ["Failed to access price"%string]); (Variant "NoLockedPrice"%string [] 1%N ["There's no locked price"%string])]) ["
			Custom [dispatch errors](https://docs.substrate.io/v3/runtime/events-and-errors)
			of this pallet.
			"%string]).
Definition md_t491 : ty := (Ty ["module_dex"%string; "TradingPairStatus"%string] [("Balance"%string,(Some 6%N)); ("BlockNumber"%string,(Some 4%N))] (TVariant [(Variant "Disabled"%string [] 0%N []); (Variant "Provisioning"%string [(Field None 492%N (Some "ProvisioningParameters<Balance, BlockNumber>"%string) [])] 1%N []); (Variant "Enabled"%string [] 2%N [])]) []).
Definition md_t492 : ty := (Ty ["module_dex"%string; "ProvisioningParameters"%string] [("Balance"%string,(Some 6%N)); ("BlockNumber"%string,(Some 4%N))] (TComposite [(Field (Some "min_contribution"%string) 475%N (Some "(Balance, Balance)"%string) []); (Field (Some "target_provision"%string) 475%N (Some "(Balance, Balance)"%string) []); (Field (Some "accumulated_provision"%string) 475%N (Some "(Balance, Balance)"%string) []); (Field (Some "not_before"%string) 4%N (Some "BlockNumber"%string) [])]) []).
Definition md_t493 : ty := (Ty [] [] (TTuple [138%N; 0%N]) []).
Definition md_t494 : ty := (Ty [] [] (TTuple [131%N; 131%N]) []).
Definition md_t495 : ty := (Ty ["module_dex"%string; "module"%string; "Error"%string] [("T"%string,None)] (TVariant [(Variant "AlreadyEnabled"%string [] 0%N ["Trading pair is already Enabled"%string]); (Variant "MustBeEnabled"%string [] 1%N ["Trading pair must be in Enabled status"%string]); (Variant "MustBeProvisioning"%string [] 2%N ["Trading pair must be in Provisioning status"%string]); (Variant "MustBeDisabled"%string [] 3%N ["Trading pair must be in Disabled status"%string]); (Variant "NotAllowedList"%string [] 4%N ["This trading pair is not allowed to be listed"%string]); (Variant "InvalidContributionIncrement"%string [] 5%N ["The increment of provision is invalid"%string]); (Variant "InvalidLiquidityIncrement"%string [] 6%N ["The increment of liquidity is invalid"%string]); (Variant "InvalidCurrencyId"%string [] 7%N ["Invalid currency id"%string]); (Variant "InvalidTradingPathLength"%string [] 8%N ["Invalid trading path length"%string]); (Variant "InsufficientTargetAmount"%string [] 9%N ["Target amount is less to min_target_amount"%string]); (Variant "ExcessiveSupplyAmount"%string [] 10%N ["Supply amount is more than max_supply_amount"%string]); (Variant "InsufficientLiquidity"%string [] 11%N ["Liquidity is not enough"%string]); (Variant "ZeroSupplyAmount"%string [] 12%N ["The supply amount is zero"%string]); (Variant "ZeroTargetAmount"%string [] 13%N ["The target amount is zero"%string]); (Variant "UnacceptableShareIncrement"%string [] 14%N ["The share increment is unacceptable"%string]); (Variant "UnacceptableLiquidityWithdrawn"%string [] 15%N ["The liquidity withdrawn is unacceptable"%string]); (Variant "InvariantCheckFailed"%string [] 16%N ["The swap dosen't meet the invariant check"%string]); (Variant "UnqualifiedProvision"%string [] 17%N ["The Provision is unqualified to be converted to `Enabled`"%string]); (Variant "StillProvisioning"%string [] 18%N ["Trading pair is still provisioning"%string])]) ["
			Custom [dispatch errors](https://docs.substrate.io/v3/runtime/events-and-errors)
			of this pallet.
			"%string]).
Definition md_t496 : ty := (Ty ["module_auction_manager"%string; "CollateralAuctionItem"%string] [("AccountId"%string,(Some 0%N)); ("BlockNumber"%string,(Some 4%N))] (TComposite [(Field (Some "refund_recipient"%string) 0%N (Some "AccountId"%string) []); (Field (Some "currency_id"%string) 41%N (Some "CurrencyId"%string) []); (Field (Some "initial_amount"%string) 50%N (Some "Balance"%string) []); (Field (Some "amount"%string) 50%N (Some "Balance"%string) []); (Field (Some "target"%string) 50%N (Some "Balance"%string) []); (Field (Some "start_time"%string) 4%N (Some "BlockNumber"%string) [])]) []).
Definition md_t497 : ty := (Ty ["module_auction_manager"%string; "module"%string; "Error"%string] [("T"%string,None)] (TVariant [(Variant "AuctionNotExists"%string [] 0%N ["The auction dose not exist"%string]); (Variant "InReverseStage"%string [] 1%N ["The collateral auction is in reverse stage now"%string]); (Variant "InvalidFeedPrice"%string [] 2%N ["Feed price is invalid"%string]); (Variant "MustAfterShutdown"%string [] 3%N ["Must after system shutdown"%string]); (Variant "InvalidBidPrice"%string [] 4%N ["Bid price is invalid"%string]); (Variant "InvalidAmount"%string [] 5%N ["Invalid input amount"%string])]) ["
			Custom [dispatch errors](https://docs.substrate.io/v3/runtime/events-and-errors)
			of this pallet.
			"%string]).
Definition md_t498 : ty := (Ty [] [] (TTuple [41%N; 0%N]) []).
Definition md_t499 : ty := (Ty ["module_loans"%string; "Position"%string] [] (TComposite [(Field (Some "collateral"%string) 6%N (Some "Balance"%string) []); (Field (Some "debit"%string) 6%N (Some "Balance"%string) [])]) []).
Definition md_t500 : ty := (Ty ["module_loans"%string; "module"%string; "Error"%string] [("T"%string,None)] (TVariant [(Variant "AmountConvertFailed"%string [] 0%N [])]) ["
			Custom [dispatch errors](https://docs.substrate.io/v3/runtime/events-and-errors)
			of this pallet.
			"%string]).
Definition md_t501 : ty := (Ty [] [] (TTuple [0%N; 498%N]) []).
Definition md_t502 : ty := (Ty ["module_honzon"%string; "module"%string; "Error"%string] [("T"%string,None)] (TVariant [(Variant "NoPermission"%string [] 0%N []); (Variant "AlreadyShutdown"%string [] 1%N []); (Variant "AuthorizationNotExists"%string [] 2%N []); (Variant "AlreadyAuthorized"%string [] 3%N [])]) ["
			Custom [dispatch errors](https://docs.substrate.io/v3/runtime/events-and-errors)
			of this pallet.
			"%string]).
Definition md_t503 : ty := (Ty ["module_cdp_treasury"%string; "module"%string; "Error"%string] [("T"%string,None)] (TVariant [(Variant "CollateralNotEnough"%string [] 0%N ["The collateral amount of CDP treasury is not enough"%string]); (Variant "SurplusPoolNotEnough"%string [] 1%N ["The surplus pool of CDP treasury is not enough"%string]); (Variant "DebitPoolNotEnough"%string [] 2%N ["The debit pool of CDP treasury is not enough"%string]); (Variant "CannotSwap"%string [] 3%N ["Cannot use collateral to swap stable"%string])]) ["
			Custom [dispatch errors](https://docs.substrate.io/v3/runtime/events-and-errors)
			of this pallet.
			"%string]).
Definition md_t504 : ty := (Ty ["module_cdp_engine"%string; "RiskManagementParams"%string] [] (TComposite [(Field (Some "maximum_total_debit_value"%string) 6%N (Some "Balance"%string) []); (Field (Some "interest_rate_per_sec"%string) 145%N (Some "Option<Rate>"%string) []); (Field (Some "liquidation_ratio"%string) 145%N (Some "Option<Ratio>"%string) []); (Field (Some "liquidation_penalty"%string) 145%N (Some "Option<Rate>"%string) []); (Field (Some "required_collateral_ratio"%string) 145%N (Some "Option<Ratio>"%string) [])]) []).
Definition md_t505 : ty := (Ty ["module_cdp_engine"%string; "module"%string; "Error"%string] [("T"%string,None)] (TVariant [(Variant "ExceedDebitValueHardCap"%string [] 0%N ["The total debit value of specific collateral type already exceed the"%string; "hard cap"%string]); (Variant "BelowRequiredCollateralRatio"%string [] 1%N ["The collateral ratio below the required collateral ratio"%string]); (Variant "BelowLiquidationRatio"%string [] 2%N ["The collateral ratio below the liquidation ratio"%string]); (Variant "MustBeUnsafe"%string [] 3%N ["The CDP must be unsafe status"%string]); (Variant "MustBeSafe"%string [] 4%N ["The CDP must be safe status"%string]); (Variant "InvalidCollateralType"%string [] 5%N ["Invalid collateral type"%string]); (Variant "RemainDebitValueTooSmall"%string [] 6%N ["Remain debit value in CDP below the dust amount"%string]); (Variant "InvalidFeedPrice"%string [] 7%N ["Feed price is invalid"%string]); (Variant "NoDebitValue"%string [] 8%N ["No debit value in CDP so that it cannot be settled"%string]); (Variant "AlreadyShutdown"%string [] 9%N ["System has already been shutdown"%string]); (Variant "MustAfterShutdown"%string [] 10%N ["Must after system shutdown"%string])]) ["
			Custom [dispatch errors](https://docs.substrate.io/v3/runtime/events-and-errors)
			of this pallet.
			"%string]).
Definition md_t506 : ty := (Ty ["module_emergency_shutdown"%string; "module"%string; "Error"%string] [("T"%string,None)] (TVariant [(Variant "AlreadyShutdown"%string [] 0%N ["System has already been shutdown"%string]); (Variant "MustAfterShutdown"%string [] 1%N ["Must after system shutdown"%string]); (Variant "CanNotRefund"%string [] 2%N ["Final redemption is still not opened"%string]); (Variant "ExistPotentialSurplus"%string [] 3%N ["Exist potential surplus, means settlement has not been completed"%string]); (Variant "ExistUnhandledDebit"%string [] 4%N ["Exist unhandled debit, means settlement has not been completed"%string])]) ["
			Custom [dispatch errors](https://docs.substrate.io/v3/runtime/events-and-errors)
			of this pallet.
			"%string]).
Definition md_t507 : ty := (Ty [] [] (TTuple [6%N; 150%N]) []).
Definition md_t508 : ty := (Ty ["frame_support"%string; "storage"%string; "bounded_vec"%string; "BoundedVec"%string] [("T"%string,(Some 297%N)); ("S"%string,None)] (TComposite [(Field None 296%N (Some "Vec<T>"%string) [])]) []).
Definition md_t509 : ty := (Ty ["module_homa_lite"%string; "module"%string; "Error"%string] [("T"%string,None)] (TVariant [(Variant "InvalidTotalStakingCurrency"%string [] 0%N ["The total amount for the Staking currency must be more than zero."%string]); (Variant "AmountBelowMinimumThreshold"%string [] 1%N ["The mint amount is below the minimum threshold allowed."%string]); (Variant "ExceededStakingCurrencyMintCap"%string [] 2%N ["The amount of Staking currency used has exceeded the cap allowed."%string]); (Variant "InsufficientReservedBalances"%string [] 3%N ["There isn't enough reserved currencies to cancel the redeem request."%string]); (Variant "InsufficientTotalStakingCurrency"%string [] 4%N ["Amount redeemed is above total amount staked."%string]); (Variant "InsufficientLiquidBalance"%string [] 5%N ["There isn't enough liquid balance in the user's account."%string]); (Variant "TooManyScheduledUnbonds"%string [] 6%N ["Too many Scheduled unbonds"%string]); (Variant "XcmFailed"%string [] 7%N ["The xcm operation have failed"%string])]) ["
			Custom [dispatch errors](https://docs.substrate.io/v3/runtime/events-and-errors)
			of this pallet.
			"%string]).
Definition md_t510 : ty := (Ty [] [] (TTuple [152%N; 41%N]) []).
Definition md_t511 : ty := (Ty ["module_incentives"%string; "module"%string; "Error"%string] [("T"%string,None)] (TVariant [(Variant "NotEnough"%string [] 0%N ["Share amount is not enough"%string]); (Variant "InvalidCurrencyId"%string [] 1%N ["Invalid currency id"%string]); (Variant "InvalidPoolId"%string [] 2%N ["Invalid pool id"%string]); (Variant "InvalidRate"%string [] 3%N ["Invalid rate"%string])]) ["
			Custom [dispatch errors](https://docs.substrate.io/v3/runtime/events-and-errors)
			of this pallet.
			"%string]).
Definition md_t512 : ty := (Ty ["module_nft"%string; "module"%string; "Error"%string] [("T"%string,None)] (TVariant [(Variant "ClassIdNotFound"%string [] 0%N ["ClassId not found"%string]); (Variant "TokenIdNotFound"%string [] 1%N ["TokenId not found"%string]); (Variant "NoPermission"%string [] 2%N ["The operator is not the owner of the token and has no permission"%string]); (Variant "InvalidQuantity"%string [] 3%N ["Quantity is invalid. need >= 1"%string]); (Variant "NonTransferable"%string [] 4%N ["Property of class don't support transfer"%string]); (Variant "NonBurnable"%string [] 5%N ["Property of class don't support burn"%string]); (Variant "NonMintable"%string [] 6%N ["Property of class don't support mint"%string]); (Variant "CannotDestroyClass"%string [] 7%N ["Can not destroy class"%string; "Total issuance is not 0"%string]); (Variant "Immutable"%string [] 8%N ["Cannot perform mutable action"%string]); (Variant "AttributesTooLarge"%string [] 9%N ["Attributes too large"%string])]) ["
			Custom [dispatch errors](https://docs.substrate.io/v3/runtime/events-and-errors)
			of this pallet.
			"%string]).
Definition md_t513 : ty := (Ty ["acala_primitives"%string; "evm"%string; "Erc20Info"%string] [] (TComposite [(Field (Some "address"%string) 44%N (Some "EvmAddress"%string) []); (Field (Some "name"%string) 10%N (Some "Vec<u8>"%string) []); (Field (Some "symbol"%string) 10%N (Some "Vec<u8>"%string) []); (Field (Some "decimals"%string) 2%N (Some "u8"%string) [])]) []).
Definition md_t514 : ty := (Ty ["module_asset_registry"%string; "module"%string; "Error"%string] [("T"%string,None)] (TVariant [(Variant "BadLocation"%string [] 0%N ["The given location could not be used (e.g. because it cannot be expressed in the"%string; "desired version of XCM)."%string]); (Variant "MultiLocationExisted"%string [] 1%N ["MultiLocation existed"%string]); (Variant "ForeignAssetIdNotExists"%string [] 2%N ["ForeignAssetId not exists"%string]); (Variant "CurrencyIdExisted"%string [] 3%N ["CurrencyId existed"%string])]) ["
			Custom [dispatch errors](https://docs.substrate.io/v3/runtime/events-and-errors)
			of this pallet.
			"%string]).
Definition md_t515 : ty := (Ty ["module_evm"%string; "module"%string; "AccountInfo"%string] [("Index"%string,(Some 4%N))] (TComposite [(Field (Some "nonce"%string) 4%N (Some "Index"%string) []); (Field (Some "contract_info"%string) 516%N (Some "Option<ContractInfo>"%string) [])]) []).
Definition md_t516 : ty := (Ty ["Option"%string] [("T"%string,(Some 517%N))] (TVariant [(Variant "None"%string [] 0%N []); (Variant "Some"%string [(Field None 517%N None [])] 1%N [])]) []).
Definition md_t517 : ty := (Ty ["module_evm"%string; "module"%string; "ContractInfo"%string] [] (TComposite [(Field (Some "code_hash"%string) 9%N (Some "H256"%string) []); (Field (Some "maintainer"%string) 44%N (Some "EvmAddress"%string) []); (Field (Some "deployed"%string) 118%N (Some "bool"%string) [])]) []).
Definition md_t518 : ty := (Ty [] [] (TTuple [44%N; 9%N]) []).
Definition md_t519 : ty := (Ty ["frame_support"%string; "storage"%string; "bounded_vec"%string; "BoundedVec"%string] [("T"%string,(Some 2%N)); ("S"%string,None)] (TComposite [(Field None 10%N (Some "Vec<T>"%string) [])]) []).
Definition md_t520 : ty := (Ty ["module_evm"%string; "module"%string; "CodeInfo"%string] [] (TComposite [(Field (Some "code_size"%string) 4%N (Some "u32"%string) []); (Field (Some "ref_count"%string) 4%N (Some "u32"%string) [])]) []).
Definition md_t521 : ty := (Ty ["module_evm"%string; "module"%string; "Error"%string] [("T"%string,None)] (TVariant [(Variant "AddressNotMapped"%string [] 0%N ["Address not mapped"%string]); (Variant "ContractNotFound"%string [] 1%N ["Contract not found"%string]); (Variant "NoPermission"%string [] 2%N ["No permission"%string]); (Variant "ContractDevelopmentNotEnabled"%string [] 3%N ["Contract development is not enabled"%string]); (Variant "ContractDevelopmentAlreadyEnabled"%string [] 4%N ["Contract development is already enabled"%string]); (Variant "ContractAlreadyDeployed"%string [] 5%N ["Contract already deployed"%string]); (Variant "ContractExceedsMaxCodeSize"%string [] 6%N ["Contract exceeds max code size"%string]); (Variant "ContractAlreadyExisted"%string [] 7%N ["Contract already existed"%string]); (Variant "OutOfStorage"%string [] 8%N ["Storage usage exceeds storage limit"%string]); (Variant "ChargeFeeFailed"%string [] 9%N ["Charge fee failed"%string]); (Variant "CannotKillContract"%string [] 10%N ["Contract cannot be killed due to reference count"%string]); (Variant "ReserveStorageFailed"%string [] 11%N ["Reserve storage failed"%string]); (Variant "UnreserveStorageFailed"%string [] 12%N ["Unreserve storage failed"%string]); (Variant "ChargeStorageFailed"%string [] 13%N ["Charge storage failed"%string]); (Variant "InvalidDecimals"%string [] 14%N ["Invalid decimals"%string])]) ["
			Custom [dispatch errors](https://docs.substrate.io/v3/runtime/events-and-errors)
			of this pallet.
			"%string]).
Definition md_t522 : ty := (Ty ["module_evm_bridge"%string; "module"%string; "Error"%string] [("T"%string,None)] (TVariant [(Variant "ExecutionFail"%string [] 0%N ["Execution failed"%string]); (Variant "ExecutionRevert"%string [] 1%N ["Execution reverted"%string]); (Variant "ExecutionFatal"%string [] 2%N ["Execution fatal"%string]); (Variant "ExecutionError"%string [] 3%N ["Execution error"%string]); (Variant "InvalidReturnValue"%string [] 4%N ["Invalid return value"%string])]) ["
			Custom [dispatch errors](https://docs.substrate.io/v3/runtime/events-and-errors)
			of this pallet.
			"%string]).
Definition md_t523 : ty := (Ty ["module_evm_accounts"%string; "module"%string; "Error"%string] [("T"%string,None)] (TVariant [(Variant "AccountIdHasMapped"%string [] 0%N ["AccountId has mapped"%string]); (Variant "EthAddressHasMapped"%string [] 1%N ["Eth address has mapped"%string]); (Variant "BadSignature"%string [] 2%N ["Bad signature"%string]); (Variant "InvalidSignature"%string [] 3%N ["Invalid signature"%string]); (Variant "NonZeroRefCount"%string [] 4%N ["Account ref count is not zero"%string])]) ["Error for evm accounts module."%string]).
Definition md_t524 : ty := (Ty ["pallet_sudo"%string; "pallet"%string; "Error"%string] [("T"%string,None)] (TVariant [(Variant "RequireSudo"%string [] 0%N ["Sender must be the Sudo account"%string])]) ["Error for the Sudo pallet"%string]).
Definition md_t525 : ty := (Ty ["sp_runtime"%string; "generic"%string; "unchecked_extrinsic"%string; "UncheckedExtrinsic"%string] [("Address"%string,(Some 209%N)); ("Call"%string,(Some 193%N)); ("Signature"%string,(Some 526%N)); ("Extra"%string,(Some 530%N))] (TComposite [(Field None 10%N None [])]) []).
Definition md_t526 : ty := (Ty ["acala_primitives"%string; "signature"%string; "AcalaMultiSignature"%string] [] (TVariant [(Variant "Ed25519"%string [(Field None 527%N (Some "ed25519::Signature"%string) [])] 0%N []); (Variant "Sr25519"%string [(Field None 529%N (Some "sr25519::Signature"%string) [])] 1%N []); (Variant "Ecdsa"%string [(Field None 312%N (Some "ecdsa::Signature"%string) [])] 2%N []); (Variant "Ethereum"%string [(Field None 313%N (Some "[u8; 65]"%string) [])] 3%N []); (Variant "Eip1559"%string [(Field None 313%N (Some "[u8; 65]"%string) [])] 4%N []); (Variant "AcalaEip712"%string [(Field None 313%N (Some "[u8; 65]"%string) [])] 5%N [])]) []).
Definition md_t527 : ty := (Ty ["sp_core"%string; "ed25519"%string; "Signature"%string] [] (TComposite [(Field None 528%N (Some "[u8; 64]"%string) [])]) []).
Definition md_t528 : ty := (Ty [] [] (TArray 64%N 2%N) []).
Definition md_t529 : ty := (Ty ["sp_core"%string; "sr25519"%string; "Signature"%string] [] (TComposite [(Field None 528%N (Some "[u8; 64]"%string) [])]) []).
Definition md_t530 : ty := (Ty [] [] (TTuple [531%N; 532%N; 533%N; 534%N; 536%N; 537%N; 538%N; 539%N]) []).
Definition md_t531 : ty := (Ty ["frame_system"%string; "extensions"%string; "check_spec_version"%string; "CheckSpecVersion"%string] [("T"%string,None)] (TComposite []) []).
Definition md_t532 : ty := (Ty ["frame_system"%string; "extensions"%string; "check_tx_version"%string; "CheckTxVersion"%string] [("T"%string,None)] (TComposite []) []).
Definition md_t533 : ty := (Ty ["frame_system"%string; "extensions"%string; "check_genesis"%string; "CheckGenesis"%string] [("T"%string,None)] (TComposite []) []).
Definition md_t534 : ty := (Ty ["frame_system"%string; "extensions"%string; "check_mortality"%string; "CheckMortality"%string] [("T"%string,None)] (TComposite [(Field None 535%N (Some "Era"%string) [])]) []).
Definition md_t535 : ty := (Ty ["sp_runtime"%string; "generic"%string; "era"%string; "Era"%string] [] (TVariant [(Variant "Immortal"%string [] 0%N []); (Variant "Mortal1"%string [(Field None 2%N None [])] 1%N []); (Variant "Mortal2"%string [(Field None 2%N None [])] 2%N []); (Variant "Mortal3"%string [(Field None 2%N None [])] 3%N []); (Variant "Mortal4"%string [(Field None 2%N None [])] 4%N []); (Variant "Mortal5"%string [(Field None 2%N None [])] 5%N []); (Variant "Mortal6"%string [(Field None 2%N None [])] 6%N []); (Variant "Mortal7"%string [(Field None 2%N None [])] 7%N []); (Variant "Mortal8"%string [(Field None 2%N None [])] 8%N []); (Variant "Mortal9"%string [(Field None 2%N None [])] 9%N []); (Variant "Mortal10"%string [(Field None 2%N None [])] 10%N []); (Variant "Mortal11"%string [(Field None 2%N None [])] 11%N []); (Variant "Mortal12"%string [(Field None 2%N None [])] 12%N []); (Variant "Mortal13"%string [(Field None 2%N None [])] 13%N []); (Variant "Mortal14"%string [(Field None 2%N None [])] 14%N []); (Variant "Mortal15"%string [(Field None 2%N None [])] 15%N []); (Variant "Mortal16"%string [(Field None 2%N None [])] 16%N []); (Variant "Mortal17"%string [(Field None 2%N None [])] 17%N []); (Variant "Mortal18"%string [(Field None 2%N None [])] 18%N []); (Variant "Mortal19"%string [(Field None 2%N None [])] 19%N []); (Variant "Mortal20"%string [(Field None 2%N None [])] 20%N []); (Variant "Mortal21"%string [(Field None 2%N None [])] 21%N []); (Variant "Mortal22"%string [(Field None 2%N None [])] 22%N []); (Variant "Mortal23"%string [(Field None 2%N None [])] 23%N []); (Variant "Mortal24"%string [(Field None 2%N None [])] 24%N []); (Variant "Mortal25"%string [(Field None 2%N None [])] 25%N []); (Variant "Mortal26"%string [(Field None 2%N None [])] 26%N []); (Variant "Mortal27"%string [(Field None 2%N None [])] 27%N []); (Variant "Mortal28"%string [(Field None 2%N None [])] 28%N []); (Variant "Mortal29"%string [(Field None 2%N None [])] 29%N []); (Variant "Mortal30"%string [(Field None 2%N None [])] 30%N []); (Variant "Mortal31"%string [(Field None 2%N None [])] 31%N []); (Variant "Mortal32"%string [(Field None 2%N None [])] 32%N []); (Variant "Mortal33"%string [(Field None 2%N None [])] 33%N []); (Variant "Mortal34"%string [(Field None 2%N None [])] 34%N []); (Variant "Mortal35"%string [(Field None 2%N None [])] 35%N []); (Variant "Mortal36"%string [(Field None 2%N None [])] 36%N []); (Variant "Mortal37"%string [(Field None 2%N None [])] 37%N []); (Variant "Mortal38"%string [(Field None 2%N None [])] 38%N []); (Variant "Mortal39"%string [(Field None 2%N None [])] 39%N []); (Variant "Mortal40"%string [(Field None 2%N None [])] 40%N []); (Variant "Mortal41"%string [(Field None 2%N None [])] 41%N []); (Variant "Mortal42"%string [(Field None 2%N None [])] 42%N []); (Variant "Mortal43"%string [(Field None 2%N None [])] 43%N []); (Variant "Mortal44"%string [(Field None 2%N None [])] 44%N []); (Variant "Mortal45"%string [(Field None 2%N None [])] 45%N []); (Variant "Mortal46"%string [(Field None 2%N None [])] 46%N []); (Variant "Mortal47"%string [(Field None 2%N None [])] 47%N []); (Variant "Mortal48"%string [(Field None 2%N None [])] 48%N []); (Variant "Mortal49"%string [(Field None 2%N None [])] 49%N []); (Variant "Mortal50"%string [(Field None 2%N None [])] 50%N []); (Variant "Mortal51"%string [(Field None 2%N None [])] 51%N []); (Variant "Mortal52"%string [(Field None 2%N None [])] 52%N []); (Variant "Mortal53"%string [(Field None 2%N None [])] 53%N []); (Variant "Mortal54"%string [(Field None 2%N None [])] 54%N []); (Variant "Mortal55"%string [(Field None 2%N None [])] 55%N []); (Variant "Mortal56"%string [(Field None 2%N None [])] 56%N []); (Variant "Mortal57"%string [(Field None 2%N None [])] 57%N []); (Variant "Mortal58"%string [(Field None 2%N None [])] 58%N []); (Variant "Mortal59"%string [(Field None 2%N None [])] 59%N []); (Variant "Mortal60"%string [(Field None 2%N None [])] 60%N []); (Variant "Mortal61"%string [(Field None 2%N None [])] 61%N []); (Variant "Mortal62"%string [(Field None 2%N None [])] 62%N []); (Variant "Mortal63"%string [(Field None 2%N None [])] 63%N []); (Variant "Mortal64"%string [(Field None 2%N None [])] 64%N []); (Variant "Mortal65"%string [(Field None 2%N None [])] 65%N []); (Variant "Mortal66"%string [(Field None 2%N None [])] 66%N []); (Variant "Mortal67"%string [(Field None 2%N None [])] 67%N []); (Variant "Mortal68"%string [(Field None 2%N None [])] 68%N []); (Variant "Mortal69"%string [(Field None 2%N None [])] 69%N []); (Variant "Mortal70"%string [(Field None 2%N None [])] 70%N []); (Variant "Mortal71"%string [(Field None 2%N None [])] 71%N []); (Variant "Mortal72"%string [(Field None 2%N None [])] 72%N []); (Variant "Mortal73"%string [(Field None 2%N None [])] 73%N []); (Variant "Mortal74"%string [(Field None 2%N None [])] 74%N []); (Variant "Mortal75"%string [(Field None 2%N None [])] 75%N []); (Variant "Mortal76"%string [(Field None 2%N None [])] 76%N []); (Variant "Mortal77"%string [(Field None 2%N None [])] 77%N []); (Variant "Mortal78"%string [(Field None 2%N None [])] 78%N []); (Variant "Mortal79"%string [(Field None 2%N None [])] 79%N []); (Variant "Mortal80"%string [(Field None 2%N None [])] 80%N []); (Variant "Mortal81"%string [(Field None 2%N None [])] 81%N []); (Variant "Mortal82"%string [(Field None 2%N None [])] 82%N []); (Variant "Mortal83"%string [(Field None 2%N None [])] 83%N []); (Variant "Mortal84"%string [(Field None 2%N None [])] 84%N []); (Variant "Mortal85"%string [(Field None 2%N None [])] 85%N []); (Variant "Mortal86"%string [(Field None 2%N None [])] 86%N []); (Variant "Mortal87"%string [(Field None 2%N None [])] 87%N []); (Variant "Mortal88"%string [(Field None 2%N None [])] 88%N []); (Variant "Mortal89"%string [(Field None 2%N None [])] 89%N []); (Variant "Mortal90"%string [(Field None 2%N None [])] 90%N []); (Variant "Mortal91"%string [(Field None 2%N None [])] 91%N []); (Variant "Mortal92"%string [(Field None 2%N None [])] 92%N []); (Variant "Mortal93"%string [(Field None 2%N None [])] 93%N []); (Variant "Mortal94"%string [(Field None 2%N None [])] 94%N []); (Variant "Mortal95"%string [(Field None 2%N None [])] 95%N []); (Variant "Mortal96"%string [(Field None 2%N None [])] 96%N []); (Variant "Mortal97"%string [(Field None 2%N None [])] 97%N []); (Variant "Mortal98"%string [(Field None 2%N None [])] 98%N []); (Variant "Mortal99"%string [(Field None 2%N None [])] 99%N []); (Variant "Mortal100"%string [(Field None 2%N None [])] 100%N []); (Variant "Mortal101"%string [(Field None 2%N None [])] 101%N []); (Variant "Mortal102"%string [(Field None 2%N None [])] 102%N []); (Variant "Mortal103"%string [(Field None 2%N None [])] 103%N []); (Variant "Mortal104"%string [(Field None 2%N None [])] 104%N []); (Variant "Mortal105"%string [(Field None 2%N None [])] 105%N []); (Variant "Mortal106"%string [(Field None 2%N None [])] 106%N []); (Variant "Mortal107"%string [(Field None 2%N None [])] 107%N []); (Variant "Mortal108"%string [(Field None 2%N None [])] 108%N []); (Variant "Mortal109"%string [(Field None 2%N None [])] 109%N []); (Variant "Mortal110"%string [(Field None 2%N None [])] 110%N []); (Variant "Mortal111"%string [(Field None 2%N None [])] 111%N []); (Variant "Mortal112"%string [(Field None 2%N None [])] 112%N []); (Variant "Mortal113"%string [(Field None 2%N None [])] 113%N []); (Variant "Mortal114"%string [(Field None 2%N None [])] 114%N []); (Variant "Mortal115"%string [(Field None 2%N None [])] 115%N []); (Variant "Mortal116"%string [(Field None 2%N None [])] 116%N []); (Variant "Mortal117"%string [(Field None 2%N None [])] 117%N []); (Variant "Mortal118"%string [(Field None 2%N None [])] 118%N []); (Variant "Mortal119"%string [(Field None 2%N None [])] 119%N []); (Variant "Mortal120"%string [(Field None 2%N None [])] 120%N []); (Variant "Mortal121"%string [(Field None 2%N None [])] 121%N []); (Variant "Mortal122"%string [(Field None 2%N None [])] 122%N []); (Variant "Mortal123"%string [(Field None 2%N None [])] 123%N []); (Variant "Mortal124"%string [(Field None 2%N None [])] 124%N []); (Variant "Mortal125"%string [(Field None 2%N None [])] 125%N []); (Variant "Mortal126"%string [(Field None 2%N None [])] 126%N []); (Variant "Mortal127"%string [(Field None 2%N None [])] 127%N []); (Variant "Mortal128"%string [(Field None 2%N None [])] 128%N []); (Variant "Mortal129"%string [(Field None 2%N None [])] 129%N []); (Variant "Mortal130"%string [(Field None 2%N None [])] 130%N []); (Variant "Mortal131"%string [(Field None 2%N None [])] 131%N []); (Variant "Mortal132"%string [(Field None 2%N None [])] 132%N []); (Variant "Mortal133"%string [(Field None 2%N None [])] 133%N []); (Variant "Mortal134"%string [(Field None 2%N None [])] 134%N []); (Variant "Mortal135"%string [(Field None 2%N None [])] 135%N []); (Variant "Mortal136"%string [(Field None 2%N None [])] 136%N []); (Variant "Mortal137"%string [(Field None 2%N None [])] 137%N []); (Variant "Mortal138"%string [(Field None 2%N None [])] 138%N []); (Variant "Mortal139"%string [(Field None 2%N None [])] 139%N []); (Variant "Mortal140"%string [(Field None 2%N None [])] 140%N []); (Variant "Mortal141"%string [(Field None 2%N None [])] 141%N []); (Variant "Mortal142"%string [(Field None 2%N None [])] 142%N []); (Variant "Mortal143"%string [(Field None 2%N None [])] 143%N []); (Variant "Mortal144"%string [(Field None 2%N None [])] 144%N []); (Variant "Mortal145"%string [(Field None 2%N None [])] 145%N []); (Variant "Mortal146"%string [(Field None 2%N None [])] 146%N []); (Variant "Mortal147"%string [(Field None 2%N None [])] 147%N []); (Variant "Mortal148"%string [(Field None 2%N None [])] 148%N []); (Variant "Mortal149"%string [(Field None 2%N None [])] 149%N []); (Variant "Mortal150"%string [(Field None 2%N None [])] 150%N []); (Variant "Mortal151"%string [(Field None 2%N None [])] 151%N []); (Variant "Mortal152"%string [(Field None 2%N None [])] 152%N []); (Variant "Mortal153"%string [(Field None 2%N None [])] 153%N []); (Variant "Mortal154"%string [(Field None 2%N None [])] 154%N []); (Variant "Mortal155"%string [(Field None 2%N None [])] 155%N []); (Variant "Mortal156"%string [(Field None 2%N None [])] 156%N []); (Variant "Mortal157"%string [(Field None 2%N None [])] 157%N []); (Variant "Mortal158"%string [(Field None 2%N None [])] 158%N []); (Variant "Mortal159"%string [(Field None 2%N None [])] 159%N []); (Variant "Mortal160"%string [(Field None 2%N None [])] 160%N []); (Variant "Mortal161"%string [(Field None 2%N None [])] 161%N []); (Variant "Mortal162"%string [(Field None 2%N None [])] 162%N []); (Variant "Mortal163"%string [(Field None 2%N None [])] 163%N []); (Variant "Mortal164"%string [(Field None 2%N None [])] 164%N []); (Variant "Mortal165"%string [(Field None 2%N None [])] 165%N []); (Variant "Mortal166"%string [(Field None 2%N None [])] 166%N []); (Variant "Mortal167"%string [(Field None 2%N None [])] 167%N []); (Variant "Mortal168"%string [(Field None 2%N None [])] 168%N []); (Variant "Mortal169"%string [(Field None 2%N None [])] 169%N []); (Variant "Mortal170"%string [(Field None 2%N None [])] 170%N []); (Variant "Mortal171"%string [(Field None 2%N None [])] 171%N []); (Variant "Mortal172"%string [(Field None 2%N None [])] 172%N []); (Variant "Mortal173"%string [(Field None 2%N None [])] 173%N []); (Variant "Mortal174"%string [(Field None 2%N None [])] 174%N []); (Variant "Mortal175"%string [(Field None 2%N None [])] 175%N []); (Variant "Mortal176"%string [(Field None 2%N None [])] 176%N []); (Variant "Mortal177"%string [(Field None 2%N None [])] 177%N []); (Variant "Mortal178"%string [(Field None 2%N None [])] 178%N []); (Variant "Mortal179"%string [(Field None 2%N None [])] 179%N []); (Variant "Mortal180"%string [(Field None 2%N None [])] 180%N []); (Variant "Mortal181"%string [(Field None 2%N None [])] 181%N []); (Variant "Mortal182"%string [(Field None 2%N None [])] 182%N []); (Variant "Mortal183"%string [(Field None 2%N None [])] 183%N []); (Variant "Mortal184"%string [(Field None 2%N None [])] 184%N []); (Variant "Mortal185"%string [(Field None 2%N None [])] 185%N []); (Variant "Mortal186"%string [(Field None 2%N None [])] 186%N []); (Variant "Mortal187"%string [(Field None 2%N None [])] 187%N []); (Variant "Mortal188"%string [(Field None 2%N None [])] 188%N []); (Variant "Mortal189"%string [(Field None 2%N None [])] 189%N []); (Variant "Mortal190"%string [(Field None 2%N None [])] 190%N []); (Variant "Mortal191"%string [(Field None 2%N None [])] 191%N []); (Variant "Mortal192"%string [(Field None 2%N None [])] 192%N []); (Variant "Mortal193"%string [(Field None 2%N None [])] 193%N []); (Variant "Mortal194"%string [(Field None 2%N None [])] 194%N []); (Variant "Mortal195"%string [(Field None 2%N None [])] 195%N []); (Variant "Mortal196"%string [(Field None 2%N None [])] 196%N []); (Variant "Mortal197"%string [(Field None 2%N None [])] 197%N []); (Variant "Mortal198"%string [(Field None 2%N None [])] 198%N []); (Variant "Mortal199"%string [(Field None 2%N None [])] 199%N []); (Variant "Mortal200"%string [(Field None 2%N None [])] 200%N []); (Variant "Mortal201"%string [(Field None 2%N None [])] 201%N []); (Variant "Mortal202"%string [(Field None 2%N None [])] 202%N []); (Variant "Mortal203"%string [(Field None 2%N None [])] 203%N []); (Variant "Mortal204"%string [(Field None 2%N None [])] 204%N []); (Variant "Mortal205"%string [(Field None 2%N None [])] 205%N []); (Variant "Mortal206"%string [(Field None 2%N None [])] 206%N []); (Variant "Mortal207"%string [(Field None 2%N None [])] 207%N []); (Variant "Mortal208"%string [(Field None 2%N None [])] 208%N []); (Variant "Mortal209"%string [(Field None 2%N None [])] 209%N []); (Variant "Mortal210"%string [(Field None 2%N None [])] 210%N []); (Variant "Mortal211"%string [(Field None 2%N None [])] 211%N []); (Variant "Mortal212"%string [(Field None 2%N None [])] 212%N []); (Variant "Mortal213"%string [(Field None 2%N None [])] 213%N []); (Variant "Mortal214"%string [(Field None 2%N None [])] 214%N []); (Variant "Mortal215"%string [(Field None 2%N None [])] 215%N []); (Variant "Mortal216"%string [(Field None 2%N None [])] 216%N []); (Variant "Mortal217"%string [(Field None 2%N None [])] 217%N []); (Variant "Mortal218"%string [(Field None 2%N None [])] 218%N []); (Variant "Mortal219"%string [(Field None 2%N None [])] 219%N []); (Variant "Mortal220"%string [(Field None 2%N None [])] 220%N []); (Variant "Mortal221"%string [(Field None 2%N None [])] 221%N []); (Variant "Mortal222"%string [(Field None 2%N None [])] 222%N []); (Variant "Mortal223"%string [(Field None 2%N None [])] 223%N []); (Variant "Mortal224"%string [(Field None 2%N None [])] 224%N []); (Variant "Mortal225"%string [(Field None 2%N None [])] 225%N []); (Variant "Mortal226"%string [(Field None 2%N None [])] 226%N []); (Variant "Mortal227"%string [(Field None 2%N None [])] 227%N []); (Variant "Mortal228"%string [(Field None 2%N None [])] 228%N []); (Variant "Mortal229"%string [(Field None 2%N None [])] 229%N []); (Variant "Mortal230"%string [(Field None 2%N None [])] 230%N []); (Variant "Mortal231"%string [(Field None 2%N None [])] 231%N []); (Variant "Mortal232"%string [(Field None 2%N None [])] 232%N []); (Variant "Mortal233"%string [(Field None 2%N None [])] 233%N []); (Variant "Mortal234"%string [(Field None 2%N None [])] 234%N []); (Variant "Mortal235"%string [(Field None 2%N None [])] 235%N []); (Variant "Mortal236"%string [(Field None 2%N None [])] 236%N []); (Variant "Mortal237"%string [(Field None 2%N None [])] 237%N []); (Variant "Mortal238"%string [(Field None 2%N None [])] 238%N []); (Variant "Mortal239"%string [(Field None 2%N None [])] 239%N []); (Variant "Mortal240"%string [(Field None 2%N None [])] 240%N []); (Variant "Mortal241"%string [(Field None 2%N None [])] 241%N []); (Variant "Mortal242"%string [(Field None 2%N None [])] 242%N []); (Variant "Mortal243"%string [(Field None 2%N None [])] 243%N []); (Variant "Mortal244"%string [(Field None 2%N None [])] 244%N []); (Variant "Mortal245"%string [(Field None 2%N None [])] 245%N []); (Variant "Mortal246"%string [(Field None 2%N None [])] 246%N []); (Variant "Mortal247"%string [(Field None 2%N None [])] 247%N []); (Variant "Mortal248"%string [(Field None 2%N None [])] 248%N []); (Variant "Mortal249"%string [(Field None 2%N None [])] 249%N []); (Variant "Mortal250"%string [(Field None 2%N None [])] 250%N []); (Variant "Mortal251"%string [(Field None 2%N None [])] 251%N []); (Variant "Mortal252"%string [(Field None 2%N None [])] 252%N []); (Variant "Mortal253"%string [(Field None 2%N None [])] 253%N []); (Variant "Mortal254"%string [(Field None 2%N None [])] 254%N []); (Variant "Mortal255"%string [(Field None 2%N None [])] 255%N [])]) []).
Definition md_t536 : ty := (Ty ["frame_system"%string; "extensions"%string; "check_nonce"%string; "CheckNonce"%string] [("T"%string,None)] (TComposite [(Field None 67%N (Some "T::Index"%string) [])]) []).
Definition md_t537 : ty := (Ty ["frame_system"%string; "extensions"%string; "check_weight"%string; "CheckWeight"%string] [("T"%string,None)] (TComposite []) []).
Definition md_t538 : ty := (Ty ["module_transaction_payment"%string; "ChargeTransactionPayment"%string] [("T"%string,None)] (TComposite [(Field None 50%N (Some "PalletBalanceOf<T>"%string) [])]) []).
Definition md_t539 : ty := (Ty ["module_evm"%string; "SetEvmOrigin"%string] [("T"%string,None)] (TComposite []) []).
Definition md_types : list ty := [md_t0; md_t1; md_t2; md_t3; md_t4; md_t5; md_t6; md_t7; md_t8; md_t9; md_t10; md_t11; md_t12; md_t13; md_t14; md_t15; md_t16; md_t17; md_t18; md_t19; md_t20; md_t21; md_t22; md_t23; md_t24; md_t25; md_t26; md_t27; md_t28; md_t29; md_t30; md_t31; md_t32; md_t33; md_t34; md_t35; md_t36; md_t37; md_t38; md_t39; md_t40; md_t41; md_t42; md_t43; md_t44; md_t45; md_t46; md_t47; md_t48; md_t49; md_t50; md_t51; md_t52; md_t53; md_t54; md_t55; md_t56; md_t57; md_t58; md_t59; md_t60; md_t61; md_t62; md_t63; md_t64; md_t65; md_t66; md_t67; md_t68; md_t69; md_t70; md_t71; md_t72; md_t73; md_t74; md_t75; md_t76; md_t77; md_t78; md_t79; md_t80; md_t81; md_t82; md_t83; md_t84; md_t85; md_t86; md_t87; md_t88; md_t89; md_t90; md_t91; md_t92; md_t93; md_t94; md_t95; md_t96; md_t97; md_t98; md_t99; md_t100; md_t101; md_t102; md_t103; md_t104; md_t105; md_t106; md_t107; md_t108; md_t109; md_t110; md_t111; md_t112; md_t113; md_t114; md_t115; md_t116; md_t117; md_t118; md_t119; md_t120; md_t121; md_t122; md_t123; md_t124; md_t125; md_t126; md_t127; md_t128; md_t129; md_t130; md_t131; md_t132; md_t133; md_t134; md_t135; md_t136; md_t137; md_t138; md_t139; md_t140; md_t141; md_t142; md_t143; md_t144; md_t145; md_t146; md_t147; md_t148; md_t149; md_t150; md_t151; md_t152; md_t153; md_t154; md_t155; md_t156; md_t157; md_t158; md_t159; md_t160; md_t161; md_t162; md_t163; md_t164; md_t165; md_t166; md_t167; md_t168; md_t169; md_t170; md_t171; md_t172; md_t173; md_t174; md_t175; md_t176; md_t177; md_t178; md_t179; md_t180; md_t181; md_t182; md_t183; md_t184; md_t185; md_t186; md_t187; md_t188; md_t189; md_t190; md_t191; md_t192; md_t193; md_t194; md_t195; md_t196; md_t197; md_t198; md_t199; md_t200; md_t201; md_t202; md_t203; md_t204; md_t205; md_t206; md_t207; md_t208; md_t209; md_t210; md_t211; md_t212; md_t213; md_t214; md_t215; md_t216; md_t217; md_t218; md_t219; md_t220; md_t221; md_t222; md_t223; md_t224; md_t225; md_t226; md_t227; md_t228; md_t229; md_t230; md_t231; md_t232; md_t233; md_t234; md_t235; md_t236; md_t237; md_t238; md_t239; md_t240; md_t241; md_t242; md_t243; md_t244; md_t245; md_t246; md_t247; md_t248; md_t249; md_t250; md_t251; md_t252; md_t253; md_t254; md_t255; md_t256; md_t257; md_t258; md_t259; md_t260; md_t261; md_t262; md_t263; md_t264; md_t265; md_t266; md_t267; md_t268; md_t269; md_t270; md_t271; md_t272; md_t273; md_t274; md_t275; md_t276; md_t277; md_t278; md_t279; md_t280; md_t281; md_t282; md_t283; md_t284; md_t285; md_t286; md_t287; md_t288; md_t289; md_t290; md_t291; md_t292; md_t293; md_t294; md_t295; md_t296; md_t297; md_t298; md_t299; md_t300; md_t301; md_t302; md_t303; md_t304; md_t305; md_t306; md_t307; md_t308; md_t309; md_t310; md_t311; md_t312; md_t313; md_t314; md_t315; md_t316; md_t317; md_t318; md_t319; md_t320; md_t321; md_t322; md_t323; md_t324; md_t325; md_t326; md_t327; md_t328; md_t329; md_t330; md_t331; md_t332; md_t333; md_t334; md_t335; md_t336; md_t337; md_t338; md_t339; md_t340; md_t341; md_t342; md_t343; md_t344; md_t345; md_t346; md_t347; md_t348; md_t349; md_t350; md_t351; md_t352; md_t353; md_t354; md_t355; md_t356; md_t357; md_t358; md_t359; md_t360; md_t361; md_t362; md_t363; md_t364; md_t365; md_t366; md_t367; md_t368; md_t369; md_t370; md_t371; md_t372; md_t373; md_t374; md_t375; md_t376; md_t377; md_t378; md_t379; md_t380; md_t381; md_t382; md_t383; md_t384; md_t385; md_t386; md_t387; md_t388; md_t389; md_t390; md_t391; md_t392; md_t393; md_t394; md_t395; md_t396; md_t397; md_t398; md_t399; md_t400; md_t401; md_t402; md_t403; md_t404; md_t405; md_t406; md_t407; md_t408; md_t409; md_t410; md_t411; md_t412; md_t413; md_t414; md_t415; md_t416; md_t417; md_t418; md_t419; md_t420; md_t421; md_t422; md_t423; md_t424; md_t425; md_t426; md_t427; md_t428; md_t429; md_t430; md_t431; md_t432; md_t433; md_t434; md_t435; md_t436; md_t437; md_t438; md_t439; md_t440; md_t441; md_t442; md_t443; md_t444; md_t445; md_t446; md_t447; md_t448; md_t449; md_t450; md_t451; md_t452; md_t453; md_t454; md_t455; md_t456; md_t457; md_t458; md_t459; md_t460; md_t461; md_t462; md_t463; md_t464; md_t465; md_t466; md_t467; md_t468; md_t469; md_t470; md_t471; md_t472; md_t473; md_t474; md_t475; md_t476; md_t477; md_t478; md_t479; md_t480; md_t481; md_t482; md_t483; md_t484; md_t485; md_t486; md_t487; md_t488; md_t489; md_t490; md_t491; md_t492; md_t493; md_t494; md_t495; md_t496; md_t497; md_t498; md_t499; md_t500; md_t501; md_t502; md_t503; md_t504; md_t505; md_t506; md_t507; md_t508; md_t509; md_t510; md_t511; md_t512; md_t513; md_t514; md_t515; md_t516; md_t517; md_t518; md_t519; md_t520; md_t521; md_t522; md_t523; md_t524; md_t525; md_t526; md_t527; md_t528; md_t529; md_t530; md_t531; md_t532; md_t533; md_t534; md_t535; md_t536; md_t537; md_t538; md_t539].
Definition md := metadata_of_v14 (MetadataV14 md_types [(Pallet "System"%string [(Constant "Version"%string [20%N; 97%N; 99%N; 97%N; 108%N; 97%N; 20%N; 97%N; 99%N; 97%N; 108%N; 97%N; 1%N; 0%N; 0%N; 0%N; 220%N; 7%N; 0%N; 0%N; 0%N; 0%N; 0%N; 0%N; 48%N; 223%N; 106%N; 203%N; 104%N; 153%N; 7%N; 96%N; 155%N; 3%N; 0%N; 0%N; 0%N; 55%N; 227%N; 151%N; 252%N; 124%N; 145%N; 245%N; 228%N; 1%N; 0%N; 0%N; 0%N; 64%N; 254%N; 58%N; 212%N; 1%N; 248%N; 149%N; 154%N; 5%N; 0%N; 0%N; 0%N; 210%N; 188%N; 152%N; 151%N; 238%N; 208%N; 143%N; 21%N; 3%N; 0%N; 0%N; 0%N; 247%N; 139%N; 39%N; 139%N; 229%N; 63%N; 69%N; 76%N; 2%N; 0%N; 0%N; 0%N; 221%N; 113%N; 141%N; 92%N; 197%N; 50%N; 98%N; 212%N; 1%N; 0%N; 0%N; 0%N; 171%N; 60%N; 5%N; 114%N; 41%N; 31%N; 235%N; 139%N; 1%N; 0%N; 0%N; 0%N; 188%N; 157%N; 137%N; 144%N; 79%N; 91%N; 146%N; 63%N; 1%N; 0%N; 0%N; 0%N; 55%N; 200%N; 187%N; 19%N; 80%N; 169%N; 162%N; 168%N; 1%N; 0%N; 0%N; 0%N; 110%N; 249%N; 83%N; 0%N; 75%N; 163%N; 14%N; 89%N; 1%N; 0%N; 0%N; 0%N; 227%N; 223%N; 63%N; 42%N; 168%N; 165%N; 204%N; 87%N; 1%N; 0%N; 0%N; 0%N; 234%N; 147%N; 227%N; 241%N; 111%N; 61%N; 105%N; 98%N; 1%N; 0%N; 0%N; 0%N; 1%N; 0%N; 0%N; 0%N] 184%N)]); (Pallet "Timestamp"%string []); (Pallet "Scheduler"%string []); (Pallet "Utility"%string []); (Pallet "Multisig"%string []); (Pallet "Proxy"%string []); (Pallet "TransactionPause"%string []); (Pallet "IdleScheduler"%string []); (Pallet "Balances"%string []); (Pallet "Tokens"%string []); (Pallet "Currencies"%string []); (Pallet "Vesting"%string []); (Pallet "TransactionPayment"%string []); (Pallet "Treasury"%string []); (Pallet "Bounties"%string []); (Pallet "Tips"%string []); (Pallet "ParachainSystem"%string []); (Pallet "ParachainInfo"%string []); (Pallet "Authorship"%string []); (Pallet "CollatorSelection"%string []); (Pallet "Session"%string []); (Pallet "Aura"%string []); (Pallet "AuraExt"%string []); (Pallet "SessionManager"%string []); (Pallet "XcmpQueue"%string []); (Pallet "PolkadotXcm"%string []); (Pallet "CumulusXcm"%string []); (Pallet "DmpQueue"%string []); (Pallet "XTokens"%string []); (Pallet "UnknownTokens"%string []); (Pallet "OrmlXcm"%string []); (Pallet "Authority"%string []); (Pallet "GeneralCouncil"%string []); (Pallet "GeneralCouncilMembership"%string []); (Pallet "FinancialCouncil"%string []); (Pallet "FinancialCouncilMembership"%string []); (Pallet "HomaCouncil"%string []); (Pallet "HomaCouncilMembership"%string []); (Pallet "TechnicalCommittee"%string []); (Pallet "TechnicalCommitteeMembership"%string []); (Pallet "Democracy"%string []); (Pallet "AcalaOracle"%string []); (Pallet "OperatorMembershipAcala"%string []); (Pallet "Auction"%string []); (Pallet "Rewards"%string []); (Pallet "OrmlNFT"%string []); (Pallet "Prices"%string []); (Pallet "Dex"%string []); (Pallet "AuctionManager"%string []); (Pallet "Loans"%string []); (Pallet "Honzon"%string []); (Pallet "CdpTreasury"%string []); (Pallet "CdpEngine"%string []); (Pallet "EmergencyShutdown"%string []); (Pallet "HomaLite"%string []); (Pallet "Incentives"%string []); (Pallet "NFT"%string []); (Pallet "AssetRegistry"%string []); (Pallet "EVM"%string []); (Pallet "EVMBridge"%string []); (Pallet "EvmAccounts"%string []); (Pallet "Sudo"%string [])] 525%N 4%N [(ExtMeta "CheckSpecVersion"%string 531%N 4%N); (ExtMeta "CheckTxVersion"%string 532%N 4%N); (ExtMeta "CheckGenesis"%string 533%N 9%N); (ExtMeta "CheckMortality"%string 534%N 9%N); (ExtMeta "CheckNonce"%string 536%N 29%N); (ExtMeta "CheckWeight"%string 537%N 29%N); (ExtMeta "ChargeTransactionPayment"%string 538%N 29%N); (ExtMeta "SetEvmOrigin"%string 539%N 29%N)]).
Definition nv := match m_spec_name_version md with inl x => x | inr _ => SpecNameVersion "" [] end.
Example tr_5_call :
 match (parse_transaction (slice_buffer (unhex "a80a0000dc621b10081b4b51335553ef8df227feb0327649d00beab6e09c10a1dce973590b00407a10f35a24010000dc07000001000000fc41b9bd8ef8fe53d58c7ea67c794c7ec9a73daf05e6d54b14ff6342c99ba64c5cfeb3e46c080274613bdb80809a3e84fe782ac31ea91e2c778de996f738e620"%string)) md (Some (unhex "fc41b9bd8ef8fe53d58c7ea67c794c7ec9a73daf05e6d54b14ff6342c99ba64c")) 0 tt) with (Ok (TransactionParsed (inl c) x), _, _) => show_all bs (card_call b58 idn (ShortSpecs 10%N 12%N "ACA") (string_of_bytes (spec_name nv)) c 0) | _ => "FAIL"%string end
 = "Pallet: Balances
  Call: transfer
    Field Name: dest
      Enum
        Enum Variant Name: Id
          Id: 25rZGFcFEWz1d81xB98PJN8LQu5cCwjyazAerGkng5NDuk9C
    Field Name: value
      Balance: 100.000000000000 ACA"%string.
Proof. vm_compute. reflexivity. Qed.
Example tr_5_extensions :
 match (parse_transaction (slice_buffer (unhex "a80a0000dc621b10081b4b51335553ef8df227feb0327649d00beab6e09c10a1dce973590b00407a10f35a24010000dc07000001000000fc41b9bd8ef8fe53d58c7ea67c794c7ec9a73daf05e6d54b14ff6342c99ba64c5cfeb3e46c080274613bdb80809a3e84fe782ac31ea91e2c778de996f738e620"%string)) md (Some (unhex "fc41b9bd8ef8fe53d58c7ea67c794c7ec9a73daf05e6d54b14ff6342c99ba64c")) 0 tt) with (Ok (TransactionParsed (inl c) x), _, _) => show_all bs (card_extensions b58 idn (ShortSpecs 10%N 12%N "ACA") (string_of_bytes (spec_name nv)) x) | _ => "FAIL"%string end
 = "Era: Mortal, phase: 18, period: 32
Nonce: 0
Tip: 0 pACA
Chain: acala2012
Tx Version: 1
Genesis Hash: fc41b9bd8ef8fe53d58c7ea67c794c7ec9a73daf05e6d54b14ff6342c99ba64c
Block Hash: 5cfeb3e46c080274613bdb80809a3e84fe782ac31ea91e2c778de996f738e620"%string.
Proof. vm_compute. reflexivity. Qed.
